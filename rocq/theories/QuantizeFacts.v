(** Facts about quantisation.  Values up to 255 are checked by computation over all 256 of them; for the larger
    ones the rounding steps are related to real arithmetic through Flocq. *)
From Verif Require Import Base Quantize Common BaseFacts BiffFacts CommonFacts.
From Coq Require Import Reals Lra Floats.SpecFloat.
From Flocq Require Import Core.Core IEEE754.BinarySingleNaN.

Section Equiv.
Variables prec emax : Z.
Context (Hprec : FLX.Prec_gt_0 prec) (Hmax : Prec_lt_emax prec emax).

Lemma rne_equiv s m l : round_nearest_even m l = choice_mode mode_NE s m l.
Proof.
  destruct l as [|c]; [reflexivity|]. destruct c; try reflexivity.
  cbn. unfold Round.cond_incr. destruct (Z.even m); reflexivity.
Qed.
Lemma round_aux_equiv sx mx ex lx :
  SpecFloat.binary_round_aux prec emax sx mx ex lx = BinarySingleNaN.binary_round_aux prec emax mode_NE sx mx ex lx.
Proof.
  unfold SpecFloat.binary_round_aux, BinarySingleNaN.binary_round_aux.
  destruct (shr_fexp _ _ _ _ _) as [mrs' e']. cbv zeta. rewrite (rne_equiv sx). reflexivity.
Qed.
Lemma round_equiv s m e :
  SpecFloat.binary_round prec emax s m e = BinarySingleNaN.binary_round prec emax mode_NE s m e.
Proof.
  unfold SpecFloat.binary_round, BinarySingleNaN.binary_round, shl_align_fexp.
  destruct (shl_align _ _ _) as [mz ez]. apply round_aux_equiv.
Qed.
Lemma normalize_equiv m e s :
  SpecFloat.binary_normalize prec emax m e s
    = B2SF (BinarySingleNaN.binary_normalize prec emax Hprec Hmax mode_NE m e s).
Proof. destruct m; cbn; [reflexivity| |]; rewrite B2SF_SF2B; apply round_equiv. Qed.
Lemma div_equiv (x y : binary_float prec emax) :
  SFdiv prec emax (B2SF x) (B2SF y) = B2SF (Bdiv mode_NE x y).
Proof.
  destruct x as [sx|sx| |sx mx ex Bx], y as [sy|sy| |sy my ey By]; try reflexivity.
  cbn -[SFdiv_core_binary]. rewrite B2SF_SF2B. destruct (SFdiv_core_binary _ _ _ _ _ _) as [[mz ez] lz].
  apply round_aux_equiv.
Qed.

Notation rnd := (round radix2 (SpecFloat.fexp prec emax) (round_mode mode_NE)).
Local Instance vexp : Valid_exp (SpecFloat.fexp prec emax) := fexp_correct prec emax Hprec.
Local Instance vrnd : Valid_rnd (round_mode mode_NE) := valid_rnd_round_mode mode_NE.

Lemma rnd_bounds lo hi x : generic_format radix2 (SpecFloat.fexp prec emax) lo ->
  generic_format radix2 (SpecFloat.fexp prec emax) hi -> (lo <= x <= hi)%R -> (lo <= rnd x <= hi)%R.
Proof. intros Hlo Hhi [H1 H2]. split; [apply round_ge_generic|apply round_le_generic]; auto with typeclass_instances. Qed.

Lemma normalize_bounds lo hi m e s : generic_format radix2 (SpecFloat.fexp prec emax) lo ->
  generic_format radix2 (SpecFloat.fexp prec emax) hi -> (0 <= lo)%R -> (hi < bpow radix2 emax)%R ->
  (lo <= F2R (Float radix2 m e) <= hi)%R ->
  let z := BinarySingleNaN.binary_normalize prec emax Hprec Hmax mode_NE m e s in
  (lo <= B2R z <= hi)%R /\ is_finite z = true.
Proof.
  intros Hlo Hhi H0 Hb Hx z.
  pose proof (rnd_bounds lo hi _ Hlo Hhi Hx) as HR.
  pose proof (binary_normalize_correct prec emax Hprec Hmax mode_NE m e s) as H. cbv zeta in H.
  rewrite Rlt_bool_true in H; [|rewrite Rabs_pos_eq by lra; lra].
  destruct H as (E & F & _). split; [fold z in E; rewrite E; exact HR|exact F].
Qed.
Lemma div_bounds lo hi (x y : binary_float prec emax) : generic_format radix2 (SpecFloat.fexp prec emax) lo ->
  generic_format radix2 (SpecFloat.fexp prec emax) hi -> (0 <= lo)%R -> (hi < bpow radix2 emax)%R ->
  B2R y <> 0%R -> is_finite x = true -> (lo <= B2R x / B2R y <= hi)%R ->
  (lo <= B2R (Bdiv mode_NE x y) <= hi)%R /\ is_finite (Bdiv mode_NE x y) = true.
Proof.
  intros Hlo Hhi H0 Hb Hy Hx Hq.
  pose proof (rnd_bounds lo hi _ Hlo Hhi Hq) as HR.
  pose proof (Bdiv_correct prec emax Hprec Hmax mode_NE x y Hy) as H.
  rewrite Rlt_bool_true in H; [|rewrite Rabs_pos_eq by lra; lra].
  destruct H as (E & F & _). rewrite E, F. split; assumption.
Qed.
End Equiv.

Ltac izr H := repeat match type of H with context [IZR ?z] =>
  let v := eval vm_compute in z in progress (change (IZR z) with (IZR v) in H) end.
Ltac izrg := repeat match goal with |- context [IZR ?z] =>
  let v := eval vm_compute in z in progress (change (IZR z) with (IZR v)) end.
Ltac f2r := unfold F2R; cbn [Fnum Fexp bpow radix_val radix2 Z.pow_pos Pos.iter]; izrg.
Ltac f2ri H := unfold F2R in H; cbn [Fnum Fexp bpow radix_val radix2 Z.pow_pos Pos.iter] in H; izr H.

#[local] Instance P24 : FLX.Prec_gt_0 24 := eq_refl.
#[local] Instance M24 : Prec_lt_emax 24 128 := eq_refl.
#[local] Instance P53 : FLX.Prec_gt_0 53 := eq_refl.
#[local] Instance M53 : Prec_lt_emax 53 1024 := eq_refl.

Lemma gen_F2R prec emax m e : (0 < prec)%Z -> (Z.abs m < 2 ^ prec)%Z -> (3 - emax - prec <= e)%Z ->
  generic_format radix2 (SpecFloat.fexp prec emax) (F2R (Float radix2 m e)).
Proof.
  intros Hp H1 H2. apply (generic_format_FLT radix2 (3 - emax - prec) prec). exists (Float radix2 m e); [reflexivity|exact H1|exact H2].
Qed.

Lemma conv_bounds (prec emax : Z) (prec' emax' : Z) (P : FLX.Prec_gt_0 prec') (M : Prec_lt_emax prec' emax')
      (x : binary_float prec emax) lo hi :
  generic_format radix2 (SpecFloat.fexp prec' emax') lo -> generic_format radix2 (SpecFloat.fexp prec' emax') hi ->
  (0 < lo)%R -> (hi < bpow radix2 emax')%R -> (lo <= B2R x <= hi)%R ->
  exists z : binary_float prec' emax',
    match B2SF x with
    | S754_finite s m e => SpecFloat.binary_normalize prec' emax' (SpecFloat.cond_Zopp s (Zpos m)) e s
    | _ => B2SF x
    end = B2SF z /\ (lo <= B2R z <= hi)%R /\ is_finite z = true.
Proof.
  intros Hlo Hhi H0 Hb Hx. destruct x as [s|s| |s m e Hm]; cbn [B2SF B2R] in *; try lra.
  rewrite (normalize_equiv prec' emax' P M). eexists. split; [reflexivity|].
  apply normalize_bounds; try assumption. lra.
Qed.

Lemma precise_divide_big q : (256 <= q < 4294967296)%Z ->
  SFltb f32_one (precise_divide (f32_of_Z q) (f32_of_Z 255)) = true.
Proof.
  intros Hq. unfold precise_divide.
  (* q as f32 *)
  unfold f32_of_Z at 1. rewrite (normalize_equiv 24 128 P24 M24).
  set (A := BinarySingleNaN.binary_normalize _ _ _ _ _ q 0 false).
  assert (HA : (F2R (Float radix2 1 8) <= B2R A <= F2R (Float radix2 1 32))%R /\ is_finite A = true).
  { apply normalize_bounds.
    - apply gen_F2R; lia.
    - apply gen_F2R; lia.
    - f2r. lra.
    - apply Rlt_trans with (bpow radix2 33); [f2r; lra|apply bpow_lt; lia].
    - f2r. destruct Hq as [Hq1 Hq2]. apply IZR_le in Hq1. apply IZR_lt in Hq2. lra. }
  destruct HA as [HA FA].
  (* as f64 *)
  unfold f64_of_f32 at 1.
  destruct (conv_bounds 24 128 53 1024 P53 M53 A (F2R (Float radix2 1 8)) (F2R (Float radix2 1 32))) as (A' & EA & HA' & FA').
  { apply gen_F2R; lia. } { apply gen_F2R; lia. } { f2r; lra. }
  { apply Rlt_trans with (bpow radix2 33); [f2r; lra|apply bpow_lt; lia]. } { exact HA. }
  rewrite EA. clear EA.
  (* the divisor *)
  replace (f64_of_f32 (f32_of_Z 255)) with (SpecFloat.binary_normalize 53 1024 255 0 false) by (vm_compute; reflexivity).
  rewrite (normalize_equiv 53 1024 P53 M53).
  set (Y := BinarySingleNaN.binary_normalize _ _ _ _ _ 255 0 false).
  assert (HY : (F2R (Float radix2 255 0) <= B2R Y <= F2R (Float radix2 255 0))%R /\ is_finite Y = true).
  { apply normalize_bounds; try (apply gen_F2R; lia).
    - f2r. lra.
    - apply Rlt_trans with (bpow radix2 33); [f2r; lra|apply bpow_lt; lia].
    - lra. }
  destruct HY as [HY _]. assert (EY : B2R Y = 255%R) by (f2ri HY; lra).
  rewrite (div_equiv 53 1024 P53 M53).
  f2ri HA'.
  assert (HD : (F2R (Float radix2 257 (-8)) <= B2R (Bdiv mode_NE A' Y) <= F2R (Float radix2 1 32))%R
               /\ is_finite (Bdiv mode_NE A' Y) = true).
  { apply div_bounds; try (apply gen_F2R; lia); try assumption.
    - f2r. lra.
    - apply Rlt_trans with (bpow radix2 33); [f2r; lra|apply bpow_lt; lia].
    - rewrite EY. lra.
    - rewrite EY. f2r. lra. }
  destruct HD as [HD FD].
  (* back to f32 *)
  unfold f32_of_f64.
  destruct (conv_bounds 53 1024 24 128 P24 M24 (Bdiv mode_NE A' Y) (F2R (Float radix2 257 (-8))) (F2R (Float radix2 1 32))) as (R & ER & HR & FR).
  { apply gen_F2R; lia. } { apply gen_F2R; lia. } { f2r; lra. }
  { apply Rlt_trans with (bpow radix2 33); [f2r; lra|apply bpow_lt; lia]. } { exact HD. }
  rewrite ER. clear ER.
  unfold f32_one, f32_of_Z. rewrite (normalize_equiv 24 128 P24 M24).
  set (I := BinarySingleNaN.binary_normalize _ _ _ _ _ 1 0 false).
  assert (HI : (F2R (Float radix2 1 0) <= B2R I <= F2R (Float radix2 1 0))%R /\ is_finite I = true).
  { apply normalize_bounds; try (apply gen_F2R; lia).
    - f2r. lra.
    - apply Rlt_trans with (bpow radix2 33); [f2r; lra|apply bpow_lt; lia].
    - lra. }
  destruct HI as [HI FI].
  pose proof (Bltb_correct 24 128 I R FI FR) as HB. unfold Bltb in HB. rewrite HB.
  apply Rlt_bool_true. f2ri HI. f2ri HR. lra.
Qed.

Lemma f32_min_one x : SFltb f32_one x = true -> f32_min x f32_one = f32_one.
Proof.
  intros H. assert (E : f32_one = S754_finite false 8388608 (-23)) by (vm_compute; reflexivity).
  unfold f32_min. rewrite H, E. destruct x; reflexivity.
Qed.
Lemma dequantize_8_big i : 256 <= w32_to_Z i -> dequantize_unsigned_8 i = f32_bits f32_one.
Proof.
  intros H. unfold dequantize_unsigned_8. f_equal. apply f32_min_one. apply precise_divide_big.
  pose proof (w32_to_Z_range i). lia.
Qed.

Definition all_u8 : list Z := map Z.of_nat (seq 0 256).
Lemma all_u8_in z : 0 <= z < 256 -> In z all_u8.
Proof.
  intros H. unfold all_u8. rewrite in_map_iff. exists (Z.to_nat z). split; [lia|]. apply in_seq. lia.
Qed.
Lemma forall_u8 (f : Z -> bool) : forallb f all_u8 = true -> forall z, 0 <= z < 256 -> f z = true.
Proof. intros H z Hz. rewrite forallb_forall in H. apply H, all_u8_in, Hz. Qed.

Lemma dili_small : forall z, 0 <= z < 256 -> dili_ok (dequantize_unsigned_8 (Z_to_w32 z)) = true.
Proof. apply (forall_u8 (fun z => dili_ok (dequantize_unsigned_8 (Z_to_w32 z)))). vm_compute. reflexivity. Qed.
Lemma dili_one : dili_ok (f32_bits f32_one) = true.
Proof. vm_compute. reflexivity. Qed.
Lemma dili_dequantized q : dili_ok (dequantize_unsigned_8 q) = true.
Proof.
  pose proof (w32_to_Z_range q) as Hr.
  destruct (Z.leb_spec 256 (w32_to_Z q)) as [H|H].
  - rewrite dequantize_8_big by exact H. exact dili_one.
  - pose proof (dili_small (w32_to_Z q)) as E. rewrite Z_to_w32_to_Z in E. apply E. lia.
Qed.

(** The numbers of built-in meshes: signs of products, and the middle of two numbers. *)
From Verif Require Import Base Text Image Sound Quantize ColorText JsonFloat Cfb Mesh Common BaseFacts BiffFacts CommonFacts QuantizeFacts QuantizeMono FlipFacts Browser Builtin SpecBuiltin.
From Coq Require Import Reals Lra Floats.SpecFloat ZifyBool.
From Flocq Require Import Core.Core IEEE754.BinarySingleNaN.

#[local] Instance P24 : FLX.Prec_gt_0 24 := eq_refl.
#[local] Instance M24 : Prec_lt_emax 24 128 := eq_refl.
Notation b32 := (binary_float 24 128).
Notation fexp24 := (SpecFloat.fexp 24 128).
Notation rnd := (round radix2 fexp24 (round_mode mode_NE)).
#[local] Instance vexp24 : Valid_exp fexp24 := fexp_correct 24 128 P24.
#[local] Instance vrnd24 : Valid_rnd (round_mode mode_NE) := valid_rnd_round_mode mode_NE.

Lemma add_equiv (x y : b32) : SFadd 24 128 (B2SF x) (B2SF y) = B2SF (Bplus mode_NE x y).
Proof.
  destruct x as [sx|sx| |sx mx ex Bx], y as [sy|sy| |sy my ey By]; try reflexivity.
  - cbn. destruct (Bool.eqb sx sy); reflexivity.
  - cbn. destruct (Bool.eqb sx sy); reflexivity.
  - cbn [B2SF SFadd Bplus]. rewrite (normalize_equiv 24 128 P24 M24). reflexivity.
Qed.
Lemma valid_b (x : b32) : valid_binary 24 128 (B2SF x) = true.
Proof. destruct x; try reflexivity. assumption. Qed.
Lemma mul_value a b : f32_value (mul32 a b) = SFmul 24 128 (f32_value a) (f32_value b).
Proof. unfold mul32. rewrite <- (b32_of_value a), <- (b32_of_value b), mul_equiv. apply value_bits, valid_b. Qed.
Lemma add_value a b : f32_value (add32 a b) = SFadd 24 128 (f32_value a) (f32_value b).
Proof. unfold add32. rewrite <- (b32_of_value a), <- (b32_of_value b), add_equiv. apply value_bits, valid_b. Qed.
Lemma div_value a b : f32_value (div32 a b) = SFdiv 24 128 (f32_value a) (f32_value b).
Proof. unfold div32. rewrite <- (b32_of_value a), <- (b32_of_value b), (div_equiv 24 128 P24 M24). apply value_bits, valid_b. Qed.

(** ** Signs *)
Definition signed (s : bool) (v : spec_float) : Prop :=
  match v with S754_finite s' _ _ => s' = s | S754_infinity s' => s' = s | _ => True end.
Lemma round_signed s m e l : signed s (SpecFloat.binary_round_aux 24 128 s m e l).
Proof.
  unfold SpecFloat.binary_round_aux. destruct (shr_fexp _ _ m e l) as [r e1]. destruct (shr_fexp _ _ _ e1 loc_Exact) as [r2 e2].
  destruct (shr_m r2); cbn; try exact I. destruct (_ <=? _)%Z; cbn; reflexivity.
Qed.
Lemma mul_signed a b s t : signed s a -> signed t b -> a <> S754_nan -> b <> S754_nan -> (forall u, a <> S754_zero u) -> signed (xorb s t) (SFmul 24 128 a b).
Proof.
  intros A B NA NB Z. destruct a as [sa|sa| |sa ma ea], b as [sb|sb| |sb mb eb]; try congruence; try exact I; try (now destruct (Z sa)); cbn in A, B; subst; try reflexivity.
  cbn [SFmul]. apply round_signed.
Qed.
Lemma positive_signed x : above_zero x -> signed false (f32_value x) /\ f32_value x <> S754_nan /\ forall u, f32_value x <> S754_zero u.
Proof. unfold above_zero, SFltb, SFcompare. destruct (f32_value x) as [|[]| |[]]; cbn; try discriminate; repeat split; discriminate. Qed.
Lemma negative_signed x : below_zero x -> signed true (f32_value x) /\ f32_value x <> S754_nan /\ forall u, f32_value x <> S754_zero u.
Proof. unfold below_zero, SFltb, SFcompare. destruct (f32_value x) as [|[]| |[]]; cbn; try discriminate; repeat split; discriminate. Qed.
Lemma signed_not_positive x : signed true (f32_value x) -> ~ above_zero x.
Proof. unfold above_zero, SFltb, SFcompare. destruct (f32_value x) as [|[]| |[]]; cbn; try discriminate; intros H; discriminate. Qed.
Lemma signed_not_negative x : signed false (f32_value x) -> ~ below_zero x.
Proof. unfold below_zero, SFltb, SFcompare. destruct (f32_value x) as [|[]| |[]]; cbn; try discriminate; intros H; discriminate. Qed.
Lemma radius_signed cos n : above_zero (cos (div32 f32_pi (int32 n))) -> signed true (f32_value (outer_radius cos n)) /\ f32_value (outer_radius cos n) <> S754_nan.
Proof.
  unfold outer_radius. intros P. destruct (positive_signed _ P) as (S & N & Z). rewrite div_value.
  change (f32_value f32_minus_half) with (S754_finite true 8388608 (-24)). split.
  - destruct (f32_value (cos _)) as [u|s| |s m e]; cbn in S; try subst s; try (now destruct (Z u)); try congruence; cbn -[SFdiv_core_binary SpecFloat.binary_round_aux]; try exact I.
    destruct (SFdiv_core_binary _ _ _ _ _ _) as [[mz ez] lz]. apply (round_signed true).
  - set (c := cos (div32 f32_pi (int32 n))) in *. rewrite <- (b32_of_value c) in *. change (S754_finite true 8388608 (-24)) with (f32_value f32_minus_half).
    rewrite <- (b32_of_value f32_minus_half), (div_equiv 24 128 P24 M24).
    intros E. destruct (b32_of c) as [u|s| |s m e Bm] eqn:C; cbn in S, N, Z; try subst s; try (now destruct (Z u)); try congruence.
    + destruct (b32_of f32_minus_half) as [| | |s' m' e' B'] eqn:H; try (apply (f_equal B2SF) in H; rewrite b32_of_value in H; discriminate); discriminate.
    + pose proof (Bdiv_correct 24 128 P24 M24 mode_NE (b32_of f32_minus_half) (B754_finite false m e Bm)) as D.
      assert (NZ : B2R (B754_finite false m e Bm) <> 0%R).
      { cbn [B2R]. apply Rgt_not_eq, F2R_gt_0. reflexivity. }
      specialize (D NZ). destruct (Rlt_bool _ _).
      * destruct D as (_ & F & _). destruct (Bdiv mode_NE (b32_of f32_minus_half) (B754_finite false m e Bm)); try discriminate.
      * rewrite D in E. discriminate E.
Qed.
Lemma opposite_signs x r n : signed true (f32_value r) -> f32_value r <> S754_nan -> n = mul32 x r ->
  (above_zero x -> ~ above_zero n) /\ (below_zero x -> ~ below_zero n).
Proof.
  intros R RN ->. split; intros H.
  - destruct (positive_signed _ H) as (S & N & Z). apply signed_not_positive. rewrite mul_value. exact (mul_signed _ _ false true S R N RN Z).
  - destruct (negative_signed _ H) as (S & N & Z). apply signed_not_negative. rewrite mul_value. exact (mul_signed _ _ true true S R N RN Z).
Qed.

(** ** The middle of two numbers *)
Lemma le_real (x y : b32) : is_finite x = true -> is_finite y = true -> SFleb (B2SF x) (B2SF y) = true <-> (B2R x <= B2R y)%R.
Proof.
  intros X Y. change (SFleb (B2SF x) (B2SF y)) with (Bleb x y). rewrite (Bleb_correct _ _ _ _ X Y). split; intros H; [|apply Rle_bool_true; exact H].
  destruct (Rle_bool_spec (B2R x) (B2R y)); [assumption|discriminate].
Qed.
Definition big : f32 := Z_to_w32 0x7f000000.
Definition minus_big : f32 := Z_to_w32 0xff000000.
Lemma big_real : B2R (b32_of big) = bpow radix2 127 /\ is_finite (b32_of big) = true.
Proof.
  assert (H : B2SF (b32_of big) = S754_finite false 8388608 104) by (rewrite b32_of_value; reflexivity).
  destruct (b32_of big) as [| | |s m e B]; try discriminate. cbn in H. injection H as -> -> ->. cbn [B2R is_finite]. split; [|reflexivity].
  unfold F2R. cbn [Fnum Fexp SpecFloat.cond_Zopp]. change 8388608%Z with (radix_val radix2 ^ 23)%Z. rewrite IZR_Zpower by lia. rewrite <- bpow_plus. reflexivity.
Qed.
Lemma minus_big_real : B2R (b32_of minus_big) = (- bpow radix2 127)%R /\ is_finite (b32_of minus_big) = true.
Proof.
  assert (H : B2SF (b32_of minus_big) = S754_finite true 8388608 104) by (rewrite b32_of_value; reflexivity).
  destruct (b32_of minus_big) as [| | |s m e B]; try discriminate. cbn in H. injection H as -> -> ->. cbn [B2R is_finite]. split; [|reflexivity].
  unfold F2R. cbn [Fnum Fexp SpecFloat.cond_Zopp Z.opp]. change (-8388608)%Z with (- (radix_val radix2 ^ 23))%Z. rewrite opp_IZR, IZR_Zpower by lia. rewrite Ropp_mult_distr_l_reverse, <- bpow_plus. reflexivity.
Qed.
Lemma half_real32 : B2R (b32_of f32_half) = (/ 2)%R /\ is_finite (b32_of f32_half) = true.
Proof.
  assert (H : B2SF (b32_of f32_half) = S754_finite false 8388608 (-24)) by (rewrite b32_of_value; reflexivity).
  destruct (b32_of f32_half) as [| | |s m e B]; try discriminate. cbn in H. injection H as -> -> ->. cbn [B2R is_finite]. split; [|reflexivity].
  unfold F2R. cbn [Fnum Fexp SpecFloat.cond_Zopp]. change 8388608%Z with (radix_val radix2 ^ 23)%Z. rewrite IZR_Zpower by lia. rewrite <- bpow_plus. change (bpow radix2 (23 + -24)) with (/ IZR 2)%R. reflexivity.
Qed.
Lemma twice_format x : generic_format radix2 fexp24 x -> generic_format radix2 fexp24 (2 * x).
Proof.
  intros F. apply (FLT_format_generic radix2 (-149) 24) in F. destruct F as [[m e] E M L]. cbn [Fnum Fexp] in M, L.
  apply (generic_format_FLT radix2 (-149) 24). exists (Float radix2 m (e + 1)); cbn [Fnum Fexp]; [|exact M|lia].
  rewrite E. unfold F2R. cbn [Fnum Fexp]. rewrite bpow_plus. change (bpow radix2 1) with (IZR 2). ring.
Qed.
Lemma between lo hi : le32 lo hi -> lt32 minus_big lo = true -> lt32 hi big = true -> le32 lo (mul32 (add32 lo hi) f32_half) /\ le32 (mul32 (add32 lo hi) f32_half) hi.
Proof.
  unfold le32, lt32. rewrite !mul_value, !add_value. rewrite <- !b32_of_value. set (l := b32_of lo). set (h := b32_of hi). set (half := b32_of f32_half). intros LH L H.
  change (SFltb (B2SF (b32_of minus_big)) (B2SF l)) with (Bltb (b32_of minus_big) l) in L. change (SFltb (B2SF h) (B2SF (b32_of big))) with (Bltb h (b32_of big)) in H.
  change (SFleb (B2SF l) (B2SF h)) with (Bleb l h) in LH.
  assert (FL : is_finite l = true /\ is_finite h = true).
  { destruct minus_big_real as [_ F1]. destruct big_real as [_ F2].
    destruct (b32_of minus_big) as [| | |]; try discriminate F1; destruct (b32_of big) as [| | |]; try discriminate F2;
    destruct l as [|[]| |], h as [|[]| |]; try discriminate; split; reflexivity. }
  destruct FL as [Fl Fh]. destruct minus_big_real as [MB FMB]. destruct big_real as [BB FBB]. destruct half_real32 as [HR FH]. fold half in HR, FH.
  rewrite (Bltb_correct _ _ _ _ FMB Fl), MB in L. rewrite (Bltb_correct _ _ _ _ Fh FBB), BB in H. rewrite (Bleb_correct _ _ _ _ Fl Fh) in LH.
  apply Rlt_bool_true_inv in L || (destruct (Rlt_bool_spec (- bpow radix2 127) (B2R l)) as [L'|]; [clear L; rename L' into L|discriminate]).
  destruct (Rlt_bool_spec (B2R h) (bpow radix2 127)) as [H'|]; [clear H|discriminate]. destruct (Rle_bool_spec (B2R l) (B2R h)) as [LH'|]; [clear LH|discriminate].
  rewrite add_equiv, mul_equiv.
  assert (Gl : generic_format radix2 fexp24 (B2R l)) by apply generic_format_B2R. assert (Gh : generic_format radix2 fexp24 (B2R h)) by apply generic_format_B2R.
  assert (R : (2 * B2R l <= rnd (B2R l + B2R h) <= 2 * B2R h)%R).
  { split; [apply round_ge_generic|apply round_le_generic]; auto with typeclass_instances; try (apply twice_format; assumption); lra. }
  assert (P : bpow radix2 128 = (2 * bpow radix2 127)%R) by (change 128%Z with (1 + 127)%Z; rewrite bpow_plus; change (bpow radix2 1) with (IZR 2); reflexivity).
  pose proof (Bplus_correct 24 128 P24 M24 mode_NE l h Fl Fh) as S. rewrite Rlt_bool_true in S by (rewrite P; apply Rabs_def1; lra).
  destruct S as (S1 & S2 & _). set (sum := Bplus mode_NE l h) in *.
  assert (R2 : (B2R l <= rnd (B2R sum * B2R half) <= B2R h)%R).
  { rewrite S1, HR. split; [apply round_ge_generic|apply round_le_generic]; auto with typeclass_instances; lra. }
  pose proof (Bmult_correct 24 128 P24 M24 mode_NE sum half) as M. rewrite Rlt_bool_true in M by (pose proof (bpow_gt_0 radix2 127); apply Rabs_def1; lra).
  destruct M as (M1 & M2 & _). rewrite S2, FH in M2. cbn [andb] in M2.
  split; [apply (proj2 (le_real l (Bmult mode_NE sum half) Fl M2))|apply (proj2 (le_real (Bmult mode_NE sum half) h M2 Fh))]; rewrite M1; apply R2.
Qed.

(** ** The smallest and the largest number *)
From Verif Require GltfFacts.
Lemma fold_min l : forall m, f32_is_nan m = false -> Forall (fun x => f32_is_nan x = false) l ->
  let r := fold_left (fun m x => if lt32 x m then x else m) l m in
  f32_is_nan r = false /\ le32 r m /\ (forall x, In x l -> le32 r x) /\ (r = m \/ In r l).
Proof.
  induction l as [|x l IH]; intros m M F; cbn [fold_left].
  - split; [exact M|]. split; [apply GltfFacts.le_refl_sf, nan_value, M|]. split; [intros ? []|left; reflexivity].
  - inversion F as [|? ? N F']; subst. destruct (lt32 x m) eqn:LT; unfold lt32 in LT.
    + destruct (IH x N F') as (A & B & C & D). cbv zeta. split; [exact A|]. split; [exact (GltfFacts.le_trans _ _ _ B (GltfFacts.lt_le _ _ LT))|]. split.
      * intros y [<-|I]; [exact B|apply C; exact I].
      * right. destruct D as [D|D]; [left; symmetry; exact D|right; exact D].
    + destruct (IH m M F') as (A & B & C & D). cbv zeta. split; [exact A|]. split; [exact B|]. split.
      * intros y [<-|I]; [exact (GltfFacts.le_trans _ _ _ B (GltfFacts.le_total _ _ (nan_value _ M) (nan_value _ N) LT))|apply C; exact I].
      * destruct D as [D|D]; [left; exact D|right; right; exact D].
Qed.
Lemma fold_max l : forall m, f32_is_nan m = false -> Forall (fun x => f32_is_nan x = false) l ->
  let r := fold_left (fun m x => if lt32 m x then x else m) l m in
  f32_is_nan r = false /\ le32 m r /\ (forall x, In x l -> le32 x r) /\ (r = m \/ In r l).
Proof.
  induction l as [|x l IH]; intros m M F; cbn [fold_left].
  - split; [exact M|]. split; [apply GltfFacts.le_refl_sf, nan_value, M|]. split; [intros ? []|left; reflexivity].
  - inversion F as [|? ? N F']; subst. destruct (lt32 m x) eqn:LT; unfold lt32 in LT.
    + destruct (IH x N F') as (A & B & C & D). cbv zeta. split; [exact A|]. split; [exact (GltfFacts.le_trans _ _ _ (GltfFacts.lt_le _ _ LT) B)|]. split.
      * intros y [<-|I]; [exact B|apply C; exact I].
      * right. destruct D as [D|D]; [left; symmetry; exact D|right; exact D].
    + destruct (IH m M F') as (A & B & C & D). cbv zeta. split; [exact A|]. split; [exact B|]. split.
      * intros y [<-|I]; [exact (GltfFacts.le_trans _ _ _ (GltfFacts.le_total _ _ (nan_value _ N) (nan_value _ M) LT) B)|apply C; exact I].
      * destruct D as [D|D]; [left; exact D|right; right; exact D].
Qed.
Lemma ring_min_spec l : l <> [] -> Forall (fun x => f32_is_nan x = false) l -> In (ring_min l) l /\ forall x, In x l -> le32 (ring_min l) x.
Proof.
  intros NE F. destruct (fold_min l (f32_inf false) eq_refl F) as (A & B & C & D). split; [|exact C]. destruct D as [D|D]; [|exact D].
  destruct l as [|x l]; [congruence|]. left. inversion F as [|? ? N _]; subst. unfold ring_min. rewrite D. specialize (C x (or_introl eq_refl)). cbv zeta in C. rewrite D in C.
  apply GltfFacts.value_same; [exact N|reflexivity|].
  revert C. unfold le32, SFleb, SFcompare. change (f32_value (f32_inf false)) with (S754_infinity false). destruct (f32_value x) as [|[]| |]; congruence.
Qed.
Lemma ring_max_spec l : l <> [] -> Forall (fun x => f32_is_nan x = false) l -> In (ring_max l) l /\ forall x, In x l -> le32 x (ring_max l).
Proof.
  intros NE F. destruct (fold_max l (f32_inf true) eq_refl F) as (A & B & C & D). split; [|exact C]. destruct D as [D|D]; [|exact D].
  destruct l as [|x l]; [congruence|]. left. inversion F as [|? ? N _]; subst. unfold ring_max. rewrite D. specialize (C x (or_introl eq_refl)). cbv zeta in C. rewrite D in C.
  apply GltfFacts.value_same; [exact N|reflexivity|].
  revert C. unfold le32, SFleb, SFcompare. change (f32_value (f32_inf true)) with (S754_infinity true). destruct (f32_value x) as [|[]| |[]]; congruence.
Qed.

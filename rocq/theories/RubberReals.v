(** Lemmas about meshes of rubbers: texture coordinates, and the middle of a box. *)
From Verif Require Import Base Text Image Sound Quantize ColorText JsonFloat Cfb Mesh Common BaseFacts BiffFacts CommonFacts QuantizeFacts QuantizeMono FlipFacts Browser Builtin SpecBuiltin BuiltinFacts BuiltinReals Polygon SpecPolygon Smooth FloatBounds SmoothFacts SpecSmooth FileSystem FileSystemFacts Walls SpecWalls WallsReals RubberMesh.
From Coq Require Import Reals Lra Floats.SpecFloat ZifyBool.
From Flocq Require Import Core.Core Relative Mult_error IEEE754.BinarySingleNaN.

#[local] Instance P24 : FLX.Prec_gt_0 24 := eq_refl.
#[local] Instance M24 : Prec_lt_emax 24 128 := eq_refl.
#[local] Instance vexp24 : Valid_exp fexp24 := fexp_correct 24 128 P24.
#[local] Instance vrnd24 : Valid_rnd (round_mode mode_NE) := valid_rnd_round_mode mode_NE.

(** ** Integers as numbers *)
Lemma int_rnd n : Z.abs n <= 2 ^ 40 -> fin (int32 n) /\ val (int32 n) = rnd (IZR n).
Proof.
  intros B. assert (E : b32_of (int32 n) = BinarySingleNaN.binary_normalize 24 128 P24 M24 mode_NE n 0 false).
  { apply B2SF_inj. rewrite b32_of_value. unfold int32. rewrite (normalize_equiv 24 128 P24 M24). apply value_bits, valid_b. }
  pose proof (binary_normalize_correct 24 128 P24 M24 mode_NE n 0 false) as C. cbv zeta in C.
  assert (EF : F2R (Float radix2 n 0) = IZR n) by (unfold F2R; cbn [Fnum Fexp bpow]; lra). rewrite EF in C.
  rewrite (small_bool 40) in C; [|lia|].
  - destruct C as (C1 & C2 & _). unfold fin, val. rewrite E. split; assumption.
  - rewrite <- abs_IZR. change (pow2 40) with (IZR (2 ^ 40)). apply IZR_le, B.
Qed.
Lemma int_format n : Z.abs n <= 2 ^ 24 -> generic_format radix2 fexp24 (IZR n).
Proof.
  intros B. replace (IZR n) with (F2R (Float radix2 n 0)) by (unfold F2R; cbn [Fnum Fexp bpow]; lra).
  destruct (Z.eq_dec (Z.abs n) (2 ^ 24)) as [E|E].
  - assert (n = 2 ^ 24 \/ n = - 2 ^ 24) as [-> | ->] by lia.
    + replace (F2R (Float radix2 (2 ^ 24) 0)) with (pow2 24) by (unfold F2R; cbn [Fnum Fexp]; change (pow2 24) with (IZR (2 ^ 24)); change (pow2 0) with 1%R; lra). apply pow_format. lia.
    + replace (F2R (Float radix2 (- 2 ^ 24) 0)) with (- pow2 24)%R by (unfold F2R; cbn [Fnum Fexp]; change (pow2 24) with (IZR (2 ^ 24)); rewrite opp_IZR; change (pow2 0) with 1%R; lra). apply generic_format_opp, pow_format. lia.
  - destruct (Z.le_gt_cases 0 n) as [P|P]; [apply gen_F2R; lia|]. replace (F2R (Float radix2 n 0)) with (- F2R (Float radix2 (- n) 0))%R by (unfold F2R; cbn [Fnum Fexp]; rewrite opp_IZR; lra). apply generic_format_opp, gen_F2R; lia.
Qed.
Lemma int_val n : Z.abs n <= 2 ^ 24 -> fin (int32 n) /\ val (int32 n) = IZR n.
Proof. intros B. destruct (int_rnd n ltac:(lia)) as [F V]. split; [exact F|]. rewrite V. apply round_generic; [auto with typeclass_instances|apply int_format, B]. Qed.

(** The number of vertices of a ring *)
Lemma to_uint_least max n (z : b32) : 0 < n <= max -> is_finite z = true -> (IZR n <= B2R z)%R -> n <= float_to_uint max (B2SF z).
Proof.
  intros N F L. destruct (Rle_or_lt (B2R z) (IZR max)) as [U|U].
  - rewrite float_to_uint_floor; [|exact F|apply (Rle_trans _ (IZR n)); [apply IZR_le; lia|exact L]|exact U]. apply Zfloor_lub, L.
  - assert (0 < IZR max)%R by (apply IZR_lt; lia). destruct z as [s|s| |s m e B]; try discriminate; [cbn in U; lra|]. cbn [B2SF float_to_uint B2R] in *. destruct s.
    + exfalso. unfold F2R in U. cbn [Fnum Fexp cond_Zopp] in U. pose proof (bpow_gt_0 radix2 e). assert (IZR (Z.neg m) < 0)%R by (apply IZR_lt; lia). cbn in U. nra.
    + unfold F2R in U. cbn [Fnum Fexp SpecFloat.cond_Zopp] in U. rewrite Z.min_l; [lia|]. destruct (0 <=? e) eqn:Q.
      * cbn [cond_Zopp] in U. rewrite <- IZR_Zpower in U by lia. rewrite <- mult_IZR in U. apply lt_IZR in U. change (radix_val radix2) with 2 in U. lia.
      * cbn [cond_Zopp] in U. apply Z.div_le_lower_bound; [apply Z.pow_pos_nonneg; lia|]. apply le_IZR. rewrite mult_IZR. change 2 with (radix_val radix2). rewrite IZR_Zpower by lia.
        pose proof (bpow_gt_0 radix2 (- e)) as P. replace (IZR (Z.pos m)) with (pow2 (- e) * (IZR (Z.pos m) * pow2 e))%R by (rewrite (Rmult_comm (IZR _)), <- Rmult_assoc, <- bpow_plus; replace (- e + e) with 0 by lia; cbn [bpow]; lra).
        apply Rmult_le_compat_l; lra.
Qed.
Lemma to_uint_val max n x : 0 < n <= max -> fin x -> (IZR n <= val x)%R -> n <= float_to_uint max (f32_value x).
Proof. intros N F L. rewrite <- b32_of_value. apply to_uint_least; assumption. Qed.
Lemma segments_least d static : 0 <= d < 2 ^ 32 -> 6 <= ring_segments d static.
Proof.
  intros D. unfold ring_segments. destruct static; [lia|]. destruct (d <? 5) eqn:D5; [lia|]. destruct (d <? 8) eqn:D8; [lia|].
  destruct (int_rnd d ltac:(lia)) as [FD VD]. destruct (known f32_1_3 false 10905190 (-23) eq_refl) as [FK VK].
  assert (D1 : (8 <= val (int32 d) <= pow2 32)%R).
  { rewrite VD. split.
    - apply round_ge_generic; auto with typeclass_instances; [apply (int_format 8); lia|apply (IZR_le 8); lia].
    - apply round_le_generic; auto with typeclass_instances; [apply pow_format; lia|]. change (pow2 32) with (IZR (2 ^ 32)). apply IZR_le. lia. }
  assert (K1 : (13 / 10 - 1 / 10 <= val f32_1_3 <= pow2 1)%R) by (rewrite VK; change (pow2 (-23)) with (/ IZR 8388608)%R; cbn [cond_Zopp]; change (pow2 1) with 2%R; lra).
  assert (WD : within 32 (int32 d)) by (split; [exact FD|rewrite Rabs_pos_eq by lra; apply D1]).
  assert (WK : within 1 f32_1_3) by (split; [exact FK|rewrite Rabs_pos_eq by lra; apply K1]).
  destruct (mul_val 32 1 _ _ ltac:(lia) WD WK) as [[F _] V].
  apply to_uint_val; [lia|exact F|]. rewrite V.
  apply round_ge_generic; auto with typeclass_instances; [apply (int_format 6); lia|]. nra.
Qed.

(** ** Texture coordinates *)
(** The inverse of a number of parts, times at most that number *)
Lemma inverse_parts n : 1 <= n <= 2 ^ 24 -> fin (div32 f32_one (int32 n)) /\ (0 <= val (div32 f32_one (int32 n)) <= 1)%R /\ (IZR n * val (div32 f32_one (int32 n)) <= 1 + pow2 (-24))%R.
Proof.
  intros N. destruct (int_val n ltac:(lia)) as [FN VN]. destruct one_val as [FO VO]. assert (P : (1 <= IZR n)%R) by (apply (IZR_le 1); lia).
  assert (Q : (0 < 1 / IZR n <= 1)%R) by (unfold Rdiv; rewrite Rmult_1_l; split; [apply Rinv_0_lt_compat; lra|rewrite <- Rinv_1; apply Rinv_le; lra]).
  destruct (div_small f32_one (int32 n) FO) as [F V]; [rewrite VN; lra|rewrite VO, VN, Rabs_pos_eq by lra; change (pow2 2) with 4%R; lra|].
  rewrite VO, VN in V. split; [exact F|]. rewrite V. split; [split; [apply round_pos; lra|apply round_le_generic; auto with typeclass_instances; [apply (int_format 1); lia|lra]]|].
  assert (E : (Rabs (rnd (1 / IZR n) - 1 / IZR n) <= / 2 * pow2 (-24 + 1) * Rabs (1 / IZR n))%R).
  { apply (relative_error_N_FLT radix2 (-149) 24 eq_refl). rewrite Rabs_pos_eq by lra. apply (Rle_trans _ (pow2 (-24))); [apply bpow_le; lia|].
    change (-24) with (- (24)). rewrite bpow_opp. unfold Rdiv. rewrite Rmult_1_l. apply Rinv_le; [lra|]. change (pow2 24) with (IZR (2 ^ 24)). apply IZR_le. lia. }
  rewrite (Rabs_pos_eq (1 / IZR n)) in E by lra. apply Rabs_le_inv in E.
  replace (/ 2 * pow2 (-24 + 1))%R with (pow2 (-24)) in E by (change (-24 + 1) with (1 + -24); rewrite bpow_plus; change (pow2 1) with 2%R; field).
  apply (Rle_trans _ (IZR n * ((1 / IZR n) * (1 + pow2 (-24))))); [apply Rmult_le_compat_l; lra|]. right. field. lra.
Qed.
Lemma part_unit n x : 1 <= n <= 2 ^ 24 -> fin x -> (0 <= val x <= IZR n)%R -> fin (mul32 x (div32 f32_one (int32 n))) /\ (0 <= val (mul32 x (div32 f32_one (int32 n))) <= 1)%R.
Proof.
  intros N FX X. destruct (inverse_parts n N) as (FI & [I0 I1] & P). assert (SM : (pow2 (-24) <= 1)%R) by (change 1%R with (pow2 0); apply bpow_le; lia).
  revert FI I0 I1 P. generalize (div32 f32_one (int32 n)). intros i FI I0 I1 P.
  assert (B : (0 <= val x * val i <= 1 + pow2 (-24))%R) by (split; [apply Rmult_le_pos; lra|apply (Rle_trans _ (IZR n * val i)); [apply Rmult_le_compat_r; lra|exact P]]).
  destruct (mul_small x i FX FI) as [FM VM]; [rewrite Rabs_pos_eq by lra; change (pow2 2) with 4%R; lra|]. split; [exact FM|]. rewrite VM. split; [apply round_pos; lra|].
  rewrite <- one_and_half_ulp. apply round_le; auto with typeclass_instances. lra.
Qed.
Lemma texture_units rings segments i j : 1 <= rings <= 2 ^ 24 -> 1 <= segments <= 2 ^ 24 -> 0 <= i < rings -> 0 <= j < segments ->
  let u := mul32 (int32 i) (div32 f32_one (int32 rings)) in unit_interval u /\ unit_interval (mul32 (add32 (int32 j) u) (div32 f32_one (int32 segments))).
Proof.
  intros R S I J. destruct (int_val i ltac:(lia)) as [FI VI]. destruct (int_val j ltac:(lia)) as [FJ VJ].
  destruct (part_unit rings (int32 i) R FI) as [FU VU]; [rewrite VI; split; apply IZR_le; lia|]. cbv zeta. revert FU VU. generalize (mul32 (int32 i) (div32 f32_one (int32 rings))). intros u FU VU.
  split; [apply unit_of; assumption|].
  assert (J0 : (0 <= IZR j)%R) by (apply IZR_le; lia). assert (J1 : (IZR j + 1 <= IZR segments)%R) by (rewrite <- plus_IZR; apply IZR_le; lia). assert (S1 : (IZR segments <= pow2 24)%R) by (change (pow2 24) with (IZR (2 ^ 24)); apply IZR_le; lia).
  assert (P24' : (1 <= pow2 24)%R) by (change 1%R with (pow2 0); apply bpow_le; lia).
  destruct (add_val 24 (int32 j) u ltac:(lia)) as [[FA _] VA]; [split; [exact FJ|rewrite VJ, Rabs_pos_eq by lra; lra]|split; [exact FU|rewrite Rabs_pos_eq by lra; lra]|].
  destruct (part_unit segments (add32 (int32 j) u) S FA) as [FV VV]; [|apply unit_of; assumption].
  rewrite VA, VJ. split; [apply round_pos; lra|]. apply round_le_generic; auto with typeclass_instances; [apply int_format; lia|lra].
Qed.

(** ** The middle of a box *)
Lemma of_fin_sub x y : fin (sub32 x y) -> fin x /\ fin y.
Proof. unfold fin. rewrite of_sub. destruct (b32_of x) as [a|a| |a m e B], (b32_of y) as [b|b| |b m' e' B']; try (cbn; intros; discriminate); try (cbn; auto; fail); cbn; destruct a, b; cbn; intros; try discriminate; auto. Qed.
Lemma of_fin_half x : fin (mul32 x f32_half) -> fin x.
Proof.
  unfold fin. rewrite of_mul. pose proof (b32_of_value f32_half) as V. change (f32_value f32_half) with (S754_finite false 8388608 (-24)) in V.
  destruct (b32_of f32_half) as [s|s| |s m e B]; try discriminate. destruct (b32_of x); cbn; auto.
Qed.
Lemma of_fin_add x y : fin x -> fin y -> fin (add32 x y) -> val (add32 x y) = rnd (val x + val y).
Proof.
  unfold fin, val. rewrite of_add. intros X Y F. pose proof (Bplus_correct 24 128 P24 M24 mode_NE _ _ X Y) as C. destruct (Rlt_bool _ _); [apply C|]. destruct C as [C _]. destruct (Bplus mode_NE (b32_of x) (b32_of y)); try discriminate; cbn in C; destruct (Bsign (b32_of x)); discriminate.
Qed.
Lemma of_fin_minus x y : fin (sub32 x y) -> val (sub32 x y) = rnd (val x - val y).
Proof.
  intros F. destruct (of_fin_sub x y F) as [X Y]. unfold fin, val in *. rewrite of_sub in *. pose proof (Bminus_correct 24 128 P24 M24 mode_NE _ _ X Y) as C. destruct (Rlt_bool _ _); [apply C|]. destruct C as [C _]. destruct (Bminus mode_NE (b32_of x) (b32_of y)); try discriminate; cbn in C; destruct (Bsign (b32_of x)); discriminate.
Qed.
Lemma of_fin_mul x y : fin x -> fin y -> fin (mul32 x y) -> val (mul32 x y) = rnd (val x * val y).
Proof.
  unfold fin, val. rewrite of_mul. intros X Y F. pose proof (Bmult_correct 24 128 P24 M24 mode_NE (b32_of x) (b32_of y)) as C. destruct (Rlt_bool _ _); [apply C|]. destruct (Bmult mode_NE (b32_of x) (b32_of y)); try discriminate; cbn in C; destruct (xorb _ _); discriminate.
Qed.
Lemma half_val : fin f32_half /\ val f32_half = (/ 2)%R.
Proof. destruct (known f32_half false 8388608 (-24) eq_refl) as [F V]. split; [exact F|]. rewrite V. cbn [cond_Zopp]. change (pow2 (-24)) with (/ IZR 16777216)%R. lra. Qed.
Lemma lowest_val x : fin x -> fin f32_lowest /\ fin f32_largest /\ (val f32_lowest <= val x <= val f32_largest)%R.
Proof.
  intros F. destruct (known f32_lowest true 16777215 104 eq_refl) as [FL VL]. destruct (known f32_largest false 16777215 104 eq_refl) as [FH VH]. split; [exact FL|]. split; [exact FH|].
  pose proof (abs_B2R_le_emax_minus_prec 24 128 P24 (b32_of x)) as B. change (B2R (b32_of x)) with (val x) in B. apply Rabs_le_inv in B.
  assert (E : (pow2 128 - pow2 (128 - 24) = IZR 16777215 * pow2 104)%R) by (change 128 with (24 + 104) at 1; rewrite bpow_plus; change (128 - 24) with 104; change (pow2 24) with (IZR 16777216); lra).
  rewrite E in B. rewrite VL, VH. cbn [cond_Zopp]. change (IZR (- Z.pos 16777215)) with (- IZR 16777215)%R. lra.
Qed.
Lemma double_format x : generic_format radix2 fexp24 (2 * val x)%R.
Proof. rewrite Rmult_comm. change 2%R with (pow2 1). apply (mult_bpow_pos_exact_FLT radix2 (-149) 24 (val x) 1); [apply val_format|lia]. Qed.
(** The middle is between the smallest and the largest *)
Lemma middle_between l : l <> [] -> Forall fin l -> fin (box_middle l) -> exists a b, In a l /\ In b l /\ (val a <= val (box_middle l) <= val b)%R.
Proof.
  intros N F FM. assert (EL : exists x l', l = x :: l') by (destruct l; [contradiction|eauto]). destruct EL as (x & l' & EL). assert (FX : fin x) by (rewrite EL in F; inversion F; assumption). destruct (lowest_val x FX) as (FL & FH & _).
  destruct (fold_max l f32_lowest FL F) as (FA & IA & LA). destruct (fold_min l f32_largest FH F) as (FB & IB & LB). unfold box_middle in *.
  revert FA IA LA FB IB LB FM. generalize (fold_left max32 l f32_lowest) (fold_left min32 l f32_largest). intros M m FA IA LA FB IB LB FM.
  assert (XI : In x l) by (rewrite EL; left; reflexivity).
  assert (A : exists b, In b l /\ val b = val M).
  { destruct IA as [<-|IA]; [|eauto]. exists x. split; [exact XI|]. pose proof (LA x (or_intror XI)). destruct (lowest_val x FX) as (_ & _ & ?). lra. }
  assert (B : exists a, In a l /\ val a = val m).
  { destruct IB as [<-|IB]; [|eauto]. exists x. split; [exact XI|]. pose proof (LB x (or_intror XI)). destruct (lowest_val x FX) as (_ & _ & ?). lra. }
  destruct A as (b & Bi & Bv). destruct B as (a & Ai & Av). exists a, b. split; [exact Ai|]. split; [exact Bi|]. rewrite Av, Bv.
  assert (O : (val m <= val M)%R) by (pose proof (LA a (or_intror Ai)); lra).
  pose proof (of_fin_half _ FM) as FS. destruct half_val as [FH2 VH2]. rewrite (of_fin_mul _ _ FS FH2 FM), VH2, (of_fin_add _ _ FA FB FS).
  assert (S : (2 * val m <= rnd (val M + val m) <= 2 * val M)%R) by (split; [apply round_ge_generic|apply round_le_generic]; auto with typeclass_instances; try apply double_format; lra).
  split; [apply round_ge_generic|apply round_le_generic]; auto with typeclass_instances; try apply val_format; lra.
Qed.
(** So, moved there, the box is on both sides of the origin *)
Lemma centred_sides l : l <> [] -> Forall fin (map (fun x => sub32 x (box_middle l)) l) ->
  (exists a, In a (map (fun x => sub32 x (box_middle l)) l) /\ le32 a f32_zero) /\ (exists b, In b (map (fun x => sub32 x (box_middle l)) l) /\ le32 f32_zero b).
Proof.
  intros N F. pose proof (proj1 (Forall_forall _ _) F) as F'. assert (G : forall x, In x l -> fin (sub32 x (box_middle l))) by (intros x X; apply F', (in_map (fun x => sub32 x (box_middle l))), X).
  assert (FL : Forall fin l) by (apply Forall_forall; intros x X; exact (proj1 (of_fin_sub _ _ (G x X)))).
  assert (FM : fin (box_middle l)) by (destruct l as [|x r] eqn:E; [contradiction|]; rewrite <- E in *; apply (of_fin_sub x), G; rewrite E; left; reflexivity).
  destruct (middle_between l N FL FM) as (a & b & A & B & [LA LB]). destruct zero_val as [FZ VZ].
  split; [exists (sub32 a (box_middle l))|exists (sub32 b (box_middle l))]; (split; [apply (in_map (fun x => sub32 x (box_middle l))); assumption|]); apply le_val; auto; rewrite VZ, of_fin_minus by auto.
  - rewrite <- (round_0 radix2 fexp24 (round_mode mode_NE)). apply round_le; auto with typeclass_instances. lra.
  - apply round_pos. lra.
Qed.

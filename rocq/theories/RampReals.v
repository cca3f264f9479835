(** Lemmas about ramps: lengths, heights and texture coordinates. *)
From Verif Require Import Base Text Json Image Sound Quantize ColorText JsonFloat Cfb Mesh SpecMesh Common Enums ItemRamp QuantizeFacts QuantizeMono FlipFacts Browser Builtin SpecBuiltin BuiltinFacts BuiltinReals Polygon SpecPolygon Smooth FloatBounds SmoothFacts SpecSmooth PropertiesSmooth Walls SpecWalls WallsReals RubberMesh RubberReals Ramps SpecRamps.
From Coq Require Import Reals Lra Floats.SpecFloat ZifyBool.
From Flocq Require Import Core.Core Relative Mult_error IEEE754.BinarySingleNaN.
Local Open Scope Z_scope.

#[local] Instance P24 : FLX.Prec_gt_0 24 := eq_refl.
#[local] Instance M24 : Prec_lt_emax 24 128 := eq_refl.
#[local] Instance vexp24 : Valid_exp fexp24 := fexp_correct 24 128 P24.
#[local] Instance vrnd24 : Valid_rnd (round_mode mode_NE) := valid_rnd_round_mode mode_NE.

(** ** The curve is bounded *)
Lemma vertices3_bounded fuel points accuracy vs : Forall (fun p => Forall moderate (coordinates p)) points -> get_vertices3 fuel points accuracy = Ok vs -> Forall good3 vs.
Proof.
  intros M H. destruct (Z.lt_ge_cases (zlen points) 2) as [N|N]; [unfold get_vertices3 in H; cbv zeta in H; unfold zlen in N; replace (List.length points <? 2)%nat with true in H by lia; injection H as <-; constructor|].
  assert (W : forall p, In p points -> moderate_point3 p).
  { intros p P. rewrite Forall_forall in M. specialize (M p P). unfold coordinates in M. inversion M as [|? ? X M']. inversion M' as [|? ? Y M'']. inversion M'' as [|? ? Z' M''']. split; [|split]; apply moderate_within; assumption. }
  rewrite get_vertices3_segments in H by exact N. destruct (segments _ _) as [us|] eqn:SG; cbn [rbind] in H; [|discriminate]. injection H as <-. apply segments_inv in SG. destruct SG as (pieces & -> & F).
  assert (B : forall p, moderate_point3 p -> within 54 (dp_x p) /\ within 54 (dp_y p) /\ within 54 (dp_z p)) by (intros p (X & Y & Z'); split; [|split]; eapply (within_mono 20); (eassumption || lia)).
  apply Forall_app. split.
  2: { destruct (nth_error points (List.length points - 1)) as [p|] eqn:E; [|constructor]. constructor; [|constructor]. apply B, W, (nth_error_In _ _ E). }
  apply Forall_concat. assert (G : Forall (fun i => 0 <= i < segment_count false points) (steps (segment_count false points))) by (apply Forall_forall; intros i; apply steps_in).
  revert F G. generalize (steps (segment_count false points)) as is. intros is. revert pieces. induction is as [|i is IH]; intros pieces F G; inversion F; subst; [constructor|]. inversion G; subst.
  constructor; [|apply IH; assumption]. destruct (segment3_step fuel points accuracy i ltac:(lia) ltac:(assumption)) as (p0 & p1 & p2 & p3 & C & E). rewrite E in *.
  destruct (controls_in _ _ _ _ _ _ _ C) as (I0 & I1 & I2 & I3). destruct (coincide3 p1 p2); [match goal with H : Ok [] = Ok _ |- _ => injection H as <- end; constructor|].
  pose proof (curve3_bounded p0 p1 p2 p3 (W _ I0) (W _ I1) (W _ I2) (W _ I3)) as BC. cbv zeta in BC. destruct BC as (BX & BY & BZ & _). pose proof (B _ (W _ I1)) as BP.
  match goal with H : subdivide _ _ _ _ _ _ _ = Ok _ |- _ => rename H into S end. revert S BX BY BZ. generalize (curve3_new p0 p1 p2 p3). intros cc S BX BY BZ.
  assert (Z1 : (val f32_zero <= val f32_one)%R) by (destruct zero_val as [_ ->]; destruct one_val as [_ ->]; lra).
  eapply Forall_impl; [|exact (subdivide_units _ _ _ _ _ _ _ _ S zero_unit one_unit Z1)]. intros v [->|(t & U & ->)]; [exact BP|].
  split; [apply (cubic_val _ _ BX U)|]. split; [apply (cubic_val _ _ BY U)|apply (cubic_val _ _ BZ U)].
Qed.
Lemma zero_within p : within p f32_zero.
Proof. destruct zero_val as [FZ VZ]. split; [exact FZ|]. rewrite VZ, Rabs_R0. apply bpow_ge_0. Qed.
Lemma vertex_good curve i : Forall good3 curve -> good3 (vertex_at curve i).
Proof.
  intros F. unfold vertex_at. destruct (nth_in_or_default i curve (mkRV3 f32_zero f32_zero f32_zero false false)) as [I|E]; [rewrite Forall_forall in F; apply F, I|rewrite E]. repeat split; apply (zero_within 54).
Qed.

(** ** Lengths *)
Lemma sub_self x : fin x -> sub32 x x = f32_zero.
Proof.
  unfold fin, sub32. rewrite <- (b32_of_value x). destruct (b32_of x) as [s| | |s m e B]; intros F; try discriminate.
  - destruct s; vm_compute; reflexivity.
  - cbn [B2SF]. unfold SFsub. rewrite Z.min_id. cbv zeta. rewrite Z.sub_diag. reflexivity.
Qed.
Definition part_length (curve : list RenderVertex3) (i : nat) : f32 := step_length (flat_at curve i) (flat_at curve (S i)).
Definition sum_parts (curve : list RenderVertex3) (i : nat) : f32 := fold_left add32 (map (part_length curve) (seq 0 i)) f32_zero.
Lemma sum_parts_step curve i : sum_parts curve (S i) = add32 (sum_parts curve i) (part_length curve i).
Proof. unfold sum_parts. rewrite seq_S, map_app, fold_left_app. reflexivity. Qed.
Lemma sum_first (add : f32 -> f32 -> f32) (f : nat -> f32) z i : fold_left add (map f (seq 0 (S i))) z = fold_left add (map (fun k => f (S k)) (seq 0 i)) (add z (f 0%nat)).
Proof. cbn [seq map fold_left]. rewrite <- seq_shift, map_map. reflexivity. Qed.
Lemma leg_zero curve : Forall good3 curve -> step_length (flat_at curve (previous 0)) (flat_at curve 0) = f32_zero.
Proof.
  intros F. change (previous 0) with 0%nat. destruct (vertex_good curve 0 F) as (X & Y & _). unfold step_length, sub2, flat_at. cbn [fst snd]. rewrite !sub_self by (apply X || apply Y). vm_compute. reflexivity.
Qed.
Lemma zero_sum : add32 f32_zero f32_zero = f32_zero.
Proof. vm_compute. reflexivity. Qed.
Lemma leg_is curve k : step_length (flat_at curve (previous (S k))) (flat_at curve (S k)) = part_length curve k.
Proof. unfold part_length, previous. change (0 <? S k)%nat with true. cbn [Nat.sub]. rewrite Nat.sub_0_r. reflexivity. Qed.
Lemma current_is curve i : Forall good3 curve -> current_length curve i = sum_parts curve i.
Proof.
  intros F. unfold current_length, sum_parts. rewrite sum_first. rewrite (leg_zero curve F), zero_sum. rewrite (map_ext _ _ (leg_is curve)). reflexivity.
Qed.
Lemma total_is curve : total_length curve = sum_parts curve (List.length curve - 1).
Proof. reflexivity. Qed.
Lemma part_bounded curve i : Forall good3 curve -> within 56 (part_length curve i) /\ (0 <= val (part_length curve i))%R.
Proof.
  intros F. destruct (vertex_good curve i F) as (X1 & Y1 & _). destruct (vertex_good curve (S i) F) as (X2 & Y2 & _). unfold part_length, step_length, length2, sub2, flat_at. cbn [fst snd].
  apply sqrt_of_squares; [apply (sub_val 54); [lia|exact X1|exact X2]|apply (sub_val 54); [lia|exact Y1|exact Y2]].
Qed.
Lemma sum_parts_ok curve i : Forall good3 curve -> sum_ok (sum_parts curve i).
Proof.
  intros F. induction i as [|i IH]; [destruct zero_val as [FZ VZ]; split; [exact FZ|]; change (sum_parts curve 0) with f32_zero; rewrite VZ; split; [lra|apply bpow_ge_0]|].
  rewrite sum_parts_step. destruct (part_bounded curve i F). apply sum_step; assumption.
Qed.
Lemma sum_parts_mono curve i j : Forall good3 curve -> (i <= j)%nat -> (val (sum_parts curve i) <= val (sum_parts curve j))%R.
Proof.
  intros F L. induction L as [|m L IH]; [lra|]. rewrite sum_parts_step. destruct (part_bounded curve m F). pose proof (sum_step _ (part_length curve m) (sum_parts_ok curve m F) ltac:(assumption) ltac:(assumption)) as [_ X]. lra.
Qed.
(** ** The way along the ramp *)
Lemma percentage_is curve i : Forall good3 curve -> percentage curve i = fraction (sum_parts curve (List.length curve - 1)) (sum_parts curve i).
Proof. intros F. unfold percentage, fraction. rewrite current_is by exact F. reflexivity. Qed.
Lemma percentage_unit curve i : Forall good3 curve -> (i < List.length curve)%nat -> fin (percentage curve i) /\ (0 <= val (percentage curve i) <= 1)%R.
Proof.
  intros F I. rewrite percentage_is by exact F. destruct (fraction_ok _ _ (sum_parts_ok curve (List.length curve - 1) F) (sum_parts_ok curve i F) (sum_parts_mono curve i (List.length curve - 1) F ltac:(lia))) as (A & B & _). auto.
Qed.
Lemma percentage_mono curve i j : Forall good3 curve -> (i <= j < List.length curve)%nat -> (val (percentage curve i) <= val (percentage curve j))%R.
Proof.
  intros F L. rewrite !percentage_is by exact F. pose proof (sum_parts_ok curve (List.length curve - 1) F) as T. pose proof (sum_parts_mono curve i j F ltac:(lia)) as KM.
  destruct (fraction_ok _ _ T (sum_parts_ok curve i F) (sum_parts_mono curve i (List.length curve - 1) F ltac:(lia))) as (_ & _ & ->). destruct (fraction_ok _ _ T (sum_parts_ok curve j F) (sum_parts_mono curve j (List.length curve - 1) F ltac:(lia))) as (_ & _ & ->).
  destruct T as [FT _]. pose proof (lt_val f32_zero _ (proj1 zero_val) FT) as [P _]. rewrite (proj2 zero_val) in P. destruct (lt32 f32_zero _); [|lra].
  specialize (P eq_refl). apply round_le; auto with typeclass_instances. apply Rmult_le_compat_r; [left; apply Rinv_0_lt_compat, P|exact KM].
Qed.
Lemma percentage_first curve : Forall good3 curve -> fin (percentage curve 0) /\ val (percentage curve 0) = 0%R.
Proof. intros F. rewrite percentage_is by exact F. apply fraction_zero. Qed.
Lemma percentage_last curve : Forall good3 curve -> lt32 f32_zero (total_length curve) = true -> fin (percentage curve (List.length curve - 1)) /\ val (percentage curve (List.length curve - 1)) = 1%R.
Proof.
  intros F P. rewrite percentage_is by exact F. rewrite total_is in P. pose proof (sum_parts_ok curve (List.length curve - 1) F) as T. destruct (fraction_ok _ _ T T (Rle_refl _)) as (A & _ & V). split; [exact A|]. rewrite V, P.
  apply (lt_val f32_zero _ (proj1 zero_val) (proj1 T)) in P. rewrite (proj2 zero_val) in P. unfold Rdiv. rewrite Rinv_r by lra. apply round_generic; auto with typeclass_instances. change 1%R with (pow2 0). apply pow_format. lia.
Qed.
(** ** Texture coordinates *)
Lemma ratio_val curve i : Forall good3 curve -> (i < List.length curve)%nat -> fin (ratio_at curve i) /\ val (ratio_at curve i) = rnd (1 - val (percentage curve i)) /\ (0 <= val (ratio_at curve i) <= 1)%R.
Proof.
  intros F I. destruct (percentage_unit curve i F I) as [FP [P0 P1]]. destruct one_val as [FO VO]. unfold ratio_at.
  destruct (sub_val 0 f32_one (percentage curve i) ltac:(lia)) as [[FS _] VS]; [split; [exact FO|rewrite VO, Rabs_R1; apply Rle_refl]|split; [exact FP|rewrite Rabs_pos_eq by lra; exact P1]|].
  rewrite VO in VS. split; [exact FS|]. split; [exact VS|]. rewrite VS. split; [apply round_pos; lra|]. apply round_le_generic; auto with typeclass_instances; [|lra]. change 1%R with (pow2 0). apply pow_format. lia.
Qed.
(** ** Heights *)
Definition within_heights (r : Ramp) : Prop := within 20 (Ramp_height_bottom r) /\ within 20 (Ramp_height_top r).
Definition height_of_share (z p b t : R) : R := rnd (rnd (z + rnd (p * rnd (t - b))) + b).
Lemma height_val r curve i : Forall good3 curve -> within_heights r -> (i < List.length curve)%nat ->
  fin (height_at r curve i) /\ val (height_at r curve i) = height_of_share (val (r3_z (vertex_at curve i))) (val (percentage curve i)) (val (Ramp_height_bottom r)) (val (Ramp_height_top r)).
Proof.
  intros F [WB WT] I. destruct (percentage_unit curve i F I) as [FP [P0 P1]]. destruct (vertex_good curve i F) as (_ & _ & WZ). unfold height_at, height_of_share.
  destruct (sub_val 20 _ _ ltac:(lia) WT WB) as [WS <-]. assert (WP : within 0 (percentage curve i)) by (split; [exact FP|rewrite Rabs_pos_eq by lra; exact P1]).
  destruct (mul_val 0 21 _ _ ltac:(lia) WP WS) as [WM <-]. destruct (add_val 54 _ _ ltac:(lia) WZ (within_mono 21 54 _ ltac:(lia) WM)) as [WA <-].
  destruct (add_val 55 _ _ ltac:(lia) WA (within_mono 20 55 _ ltac:(lia) WB)) as [[FH _] VH]. split; [exact FH|exact VH].
Qed.
Lemma height_mono z z' p p' b t : (z <= z')%R -> (p <= p')%R -> (b <= t)%R -> (height_of_share z p b t <= height_of_share z' p' b t)%R.
Proof.
  intros Z P B. unfold height_of_share. apply round_le; auto with typeclass_instances. apply Rplus_le_compat_r. apply round_le; auto with typeclass_instances. apply Rplus_le_compat; [exact Z|]. apply round_le; auto with typeclass_instances.
  apply Rmult_le_compat_r; [|exact P]. apply round_pos. lra.
Qed.
Lemma height_bottom z b t : generic_format radix2 fexp24 z -> height_of_share z 0 b t = rnd (z + b).
Proof. intros G. unfold height_of_share. rewrite Rmult_0_l, round_0, Rplus_0_r by auto with typeclass_instances. rewrite (round_generic _ _ _ z G). reflexivity. Qed.
Lemma round_error q x : -125 <= q -> (Rabs x <= pow2 q)%R -> (Rabs (rnd x - x) <= pow2 (q - 24))%R.
Proof.
  intros Q A. pose proof (error_le_half_ulp radix2 fexp24 (fun z => negb (Z.even z)) x) as E. change (round radix2 fexp24 (Znearest (fun z => negb (Z.even z))) x) with (rnd x) in E. apply (Rle_trans _ _ _ E).
  assert (U : (ulp radix2 fexp24 x <= pow2 (q + 1 - 24))%R) by (apply ulp24_le; [lia|]; apply (Rle_lt_trans _ _ _ A), bpow_lt; lia). replace (q + 1 - 24)%Z with (q - 24 + 1)%Z in U by lia. rewrite pow_succ in U. lra.
Qed.
Lemma height_top p z b t : 0 <= p <= 20 -> (Rabs z <= pow2 p)%R -> (Rabs b <= pow2 p)%R -> (Rabs t <= pow2 p)%R -> (Rabs (height_of_share z 1 b t - (z + t)) <= pow2 (p - 20))%R.
Proof.
  intros P Z B T. unfold height_of_share. rewrite Rmult_1_l. pose proof (pow_succ p) as S1. pose proof (pow_succ (p + 1)) as S2. pose proof (pow_succ (p + 1 + 1)) as S3.
  assert (D : (Rabs (t - b) <= pow2 (p + 1))%R) by (rewrite S1; revert B T; unfold Rabs; repeat destruct Rcase_abs; lra).
  pose proof (round_error (p + 1) (t - b) ltac:(lia) D) as E1. pose proof (round_small (p + 1) (t - b) ltac:(lia) D) as D1. rewrite (round_generic _ _ _ (rnd (t - b))) by (auto with typeclass_instances; apply generic_format_round; auto with typeclass_instances).
  set (d := rnd (t - b)) in *. assert (A : (Rabs (z + d) <= pow2 (p + 1 + 1))%R) by (rewrite S2, S1 in *; revert Z D1; unfold Rabs; repeat destruct Rcase_abs; lra).
  pose proof (round_error (p + 1 + 1) (z + d) ltac:(lia) A) as E2. pose proof (round_small (p + 1 + 1) (z + d) ltac:(lia) A) as A1. set (a := rnd (z + d)) in *.
  assert (H : (Rabs (a + b) <= pow2 (p + 1 + 1 + 1))%R) by (rewrite S3, S2, S1 in *; revert B A1; unfold Rabs; repeat destruct Rcase_abs; lra).
  pose proof (round_error (p + 1 + 1 + 1) (a + b) ltac:(lia) H) as E3. set (h := rnd (a + b)) in *.
  replace (p + 1 - 24)%Z with (p - 23)%Z in E1 by lia. replace (p + 1 + 1 - 24)%Z with (p - 22)%Z in E2 by lia. replace (p + 1 + 1 + 1 - 24)%Z with (p - 21)%Z in E3 by lia.
  pose proof (pow_succ (p - 23)) as T1. pose proof (pow_succ (p - 22)) as T2. pose proof (pow_succ (p - 21)) as T3. replace (p - 23 + 1)%Z with (p - 22)%Z in T1 by lia. replace (p - 22 + 1)%Z with (p - 21)%Z in T2 by lia. replace (p - 21 + 1)%Z with (p - 20)%Z in T3 by lia.
  pose proof (bpow_gt_0 radix2 (p - 23)) as PP. rewrite T3. clear - E1 E2 E3 T1 T2 PP. revert E1 E2 E3. unfold Rabs; repeat destruct Rcase_abs; lra.
Qed.
(** ** A curve that goes somewhere has a length *)
Lemma far_val x y : within 54 x -> within 54 y -> far_apart x y -> (pow2 (-60) <= Rabs (val (sub32 x y)))%R.
Proof.
  intros X Y A. destruct (sub_val 54 x y ltac:(lia) X Y) as [_ ->]. apply abs_round_ge_generic; auto with typeclass_instances; [apply pow_format; lia|].
  rewrite <- (exact_val x (proj1 X)), <- (exact_val y (proj1 Y)). rewrite <- Rmult_minus_distr_r, <- minus_IZR, Rabs_mult, (Rabs_pos_eq (pow2 (-149))) by apply bpow_ge_0. rewrite <- abs_IZR.
  change (-60)%Z with (89 + -149)%Z. rewrite bpow_plus. apply Rmult_le_compat_r; [apply bpow_ge_0|]. rewrite <- (IZR_Zpower radix2 89) by lia. apply IZR_le, A.
Qed.
Lemma square_least x : within 55 x -> (pow2 (-60) <= Rabs (val x))%R -> (pow2 (-120) <= val (mul32 x x))%R.
Proof.
  intros X A. destruct (mul_val 55 55 x x ltac:(lia) X X) as [_ ->]. apply round_ge_generic; auto with typeclass_instances; [apply pow_format; lia|]. change (-120)%Z with (-60 + -60)%Z. rewrite bpow_plus.
  replace (val x * val x)%R with (Rabs (val x) * Rabs (val x))%R by (rewrite <- Rabs_mult, Rabs_pos_eq by apply Rle_0_sqr; reflexivity). apply Rmult_le_compat; try apply bpow_ge_0; exact A.
Qed.
Lemma sqrt_least x : fin x -> (pow2 (-120) <= val x)%R -> (0 < val (sqrt32 x))%R.
Proof.
  intros F L. destruct (Bsqrt_correct 24 128 FloatBounds.P24 FloatBounds.M24 mode_NE (b32_of x)) as (E & _). unfold val in *. rewrite of_sqrt, E. apply (Rlt_le_trans _ (pow2 (-60))); [apply bpow_gt_0|].
  apply round_ge_generic; auto with typeclass_instances; [apply pow_format; lia|]. replace (pow2 (-60)) with (sqrt (pow2 (-60) * pow2 (-60))) by (apply sqrt_square, bpow_ge_0). apply sqrt_le_1_alt. rewrite <- bpow_plus. exact L.
Qed.
Lemma part_positive curve i a b : Forall good3 curve -> nth_error curve i = Some a -> nth_error curve (S i) = Some b -> far_apart (r3_x a) (r3_x b) \/ far_apart (r3_y a) (r3_y b) -> (0 < val (part_length curve i))%R.
Proof.
  intros F A B D. assert (EA : vertex_at curve i = a) by (apply nth_error_nth, A). assert (EB : vertex_at curve (S i) = b) by (apply nth_error_nth, B).
  destruct (vertex_good curve i F) as (X1 & Y1 & _). destruct (vertex_good curve (S i) F) as (X2 & Y2 & _). unfold part_length, step_length, length2, sub2, flat_at. cbn [fst snd]. rewrite EA, EB in *.
  destruct (sub_val 54 _ _ ltac:(lia) X1 X2) as [WX _]. destruct (sub_val 54 _ _ ltac:(lia) Y1 Y2) as [WY _]. destruct (mul_val 55 55 _ _ ltac:(lia) WX WX) as [MX VX]. destruct (mul_val 55 55 _ _ ltac:(lia) WY WY) as [MY VY].
  assert (PX : (0 <= val (mul32 (sub32 (r3_x a) (r3_x b)) (sub32 (r3_x a) (r3_x b))))%R) by (rewrite VX; apply round_pos, Rle_0_sqr).
  assert (PY : (0 <= val (mul32 (sub32 (r3_y a) (r3_y b)) (sub32 (r3_y a) (r3_y b))))%R) by (rewrite VY; apply round_pos, Rle_0_sqr).
  destruct (add_val 110 _ _ ltac:(lia) MX MY) as [[FS _] VS]. apply sqrt_least; [exact FS|]. rewrite VS. apply round_ge_generic; auto with typeclass_instances; [apply pow_format; lia|].
  destruct D as [D|D]; [pose proof (square_least _ WX (far_val _ _ X1 X2 D))|pose proof (square_least _ WY (far_val _ _ Y1 Y2 D))]; lra.
Qed.
Lemma moves_length curve : Forall good3 curve -> moves curve -> lt32 f32_zero (total_length curve) = true.
Proof.
  intros F (i & a & b & A & B & D). rewrite total_is. pose proof (sum_parts_ok curve (List.length curve - 1) F) as T. apply (lt_val _ _ (proj1 zero_val) (proj1 T)). rewrite (proj2 zero_val).
  assert (L : (S i < List.length curve)%nat) by (apply nth_error_Some; congruence). apply (Rlt_le_trans _ (val (sum_parts curve (S i)))); [|apply sum_parts_mono; [exact F|lia]].
  rewrite sum_parts_step. pose proof (part_positive curve i a b F A B D) as P. destruct (part_bounded curve i F) as [W _]. destruct (sum_parts_ok curve i F) as [FS [S0 S1]].
  assert (WS : within 81 (sum_parts curve i)) by (split; [exact FS|rewrite Rabs_pos_eq by exact S0; exact S1]). destruct (add_val 81 _ _ ltac:(lia) WS (within_mono 56 81 _ ltac:(lia) W)) as [_ ->].
  apply (Rlt_le_trans _ _ _ P). apply round_ge_generic; auto with typeclass_instances; [apply val_format|lra].
Qed.
(** ** On the table *)
Lemma share_unit w x : within 100 w -> (pow2 (-100) <= val w)%R -> fin x -> (0 <= val x <= val w)%R -> unit_interval (mul32 x (div32 f32_one w)).
Proof.
  intros WW LW FX X. destruct one_val as [FO VO]. assert (P : (0 < val w)%R) by (pose proof (bpow_gt_0 radix2 (-100)); lra). assert (UW : (val w <= pow2 100)%R) by (destruct WW as [_ W]; apply (Rle_trans _ _ _ (Rle_abs _) W)).
  assert (WO : within 0 f32_one) by (split; [exact FO|rewrite VO, Rabs_R1; apply Rle_refl]). destruct (div_val 0 (-100) f32_one w ltac:(lia) WO ltac:(rewrite Rabs_pos_eq by lra; exact LW)) as [[FD UD] VD]. rewrite VO in VD.
  assert (E : (Rabs (rnd (1 / val w) - 1 / val w) <= pow2 (-24) * (1 / val w))%R).
  { pose proof (relative_error_N_FLT radix2 (-149) 24 eq_refl (fun z => negb (Z.even z)) (1 / val w)) as R. change (round radix2 (FLT_exp (-149) 24) (Znearest (fun z => negb (Z.even z))) (1 / val w)) with (rnd (1 / val w)) in R.
    assert (Q : (pow2 (-149 + 24 - 1) <= Rabs (1 / val w))%R).
    { rewrite Rabs_pos_eq by (apply Rlt_le, Rdiv_lt_0_compat; lra). apply (Rle_trans _ (pow2 (-100))); [apply bpow_le; lia|]. change (-100)%Z with (- (100))%Z. rewrite bpow_opp. unfold Rdiv. rewrite Rmult_1_l. apply Rinv_le; assumption. }
    specialize (R Q). rewrite (Rabs_pos_eq (1 / val w)) in R by (apply Rlt_le, Rdiv_lt_0_compat; lra). change (pow2 (- (24) + 1)) with (/ IZR 8388608)%R in R. change (pow2 (-24)) with (/ IZR 16777216)%R.
    apply (Rle_trans _ _ _ R). lra. }
  assert (D0 : (0 <= rnd (1 / val w))%R) by (apply round_pos, Rlt_le, Rdiv_lt_0_compat; lra). 
  assert (M : (0 <= val x * rnd (1 / val w) <= 1 + pow2 (-24))%R).
  { split; [apply Rmult_le_pos; lra|]. apply (Rle_trans _ (val w * rnd (1 / val w))); [apply Rmult_le_compat_r; [exact D0|apply X]|].
    assert (U : (rnd (1 / val w) <= 1 / val w + pow2 (-24) * (1 / val w))%R) by (revert E; unfold Rabs; destruct Rcase_abs; lra).
    apply (Rle_trans _ (val w * (1 / val w + pow2 (-24) * (1 / val w)))); [apply Rmult_le_compat_l; lra|]. right. field. lra. }
  rewrite <- VD in M. destruct (mul_small x (div32 f32_one w) FX FD) as [FM VM].
  { rewrite Rabs_pos_eq by apply M. change (pow2 2) with 4%R. apply (Rle_trans _ _ _ (proj2 M)). change (pow2 (-24)) with (/ IZR 16777216)%R. lra. }
  destruct zero_val as [FZ VZ]. split; apply le_val; try assumption; rewrite VM, ?VZ, ?VO; [apply round_pos, M|]. rewrite <- one_and_half_ulp. apply round_le; auto with typeclass_instances. apply M.
Qed.
(** ** The direction across the ramp *)
Lemma rnd_split x : exists e h, (Rabs e <= / IZR 16777216)%R /\ (Rabs h <= pow2 (-150))%R /\ (rnd x = x * (1 + e) + h)%R.
Proof.
  destruct (error_N_FLT radix2 (-149) 24 eq_refl (fun z => negb (Z.even z)) x) as (e & h & E & H & _ & Q). exists e, h. change (pow2 (- (24) + 1)) with (/ IZR 8388608)%R in E. split; [lra|]. split; [|exact Q].
  pose proof (pow_succ (-150)) as P. change (-150 + 1)%Z with (-149)%Z in P. lra.
Qed.
Lemma rnd_close x m l : (Rabs x <= m)%R -> (pow2 (-61) <= l)%R -> (Rabs (rnd x - x) <= m / 16777216 + l / 1000000000000)%R.
Proof.
  intros M L. destruct (rnd_split x) as (e & h & E & H & ->). replace (x * (1 + e) + h - x)%R with (x * e + h)%R by ring. apply (Rle_trans _ _ _ (Rabs_triang _ _)). rewrite Rabs_mult.
  assert (A : (Rabs x * Rabs e <= m * / IZR 16777216)%R) by (apply Rmult_le_compat; try apply Rabs_pos; assumption).
  assert (B : (pow2 (-150) <= pow2 (-61) / 1000000000000)%R) by (change (-150)%Z with (-61 + -89)%Z; rewrite bpow_plus; unfold Rdiv; apply Rmult_le_compat_l; [apply bpow_ge_0|]; change (-89)%Z with (- (89))%Z; rewrite bpow_opp, <- (IZR_Zpower radix2 89) by lia; apply Rinv_le; [lra|apply IZR_le; vm_compute; discriminate]).
  unfold Rdiv in *. lra.
Qed.
Lemma square_error x s l : (pow2 (-61) <= l)%R -> (Rabs s <= l)%R -> x = rnd s -> (Rabs (x * x - s * s) <= 13 / 100000000 * (l * l))%R.
Proof.
  intros L S ->. pose proof (rnd_close s l l S L) as C. pose proof (bpow_gt_0 radix2 (-61)) as P. set (x := rnd s) in *.
  replace (x * x - s * s)%R with ((x - s) * (x - s + 2 * s))%R by ring. rewrite Rabs_mult. assert (D : (Rabs (x - s) <= 6 / 100000000 * l)%R) by (apply (Rle_trans _ _ _ C); unfold Rdiv; lra).
  assert (Q : (Rabs (x - s + 2 * s) <= 21 / 10 * l)%R) by (apply (Rle_trans _ _ _ (Rabs_triang _ _)); rewrite Rabs_mult, (Rabs_pos_eq 2) by lra; lra).
  apply (Rle_trans _ ((6 / 100000000 * l) * (21 / 10 * l))); [apply Rmult_le_compat; try apply Rabs_pos; assumption|]. assert (0 <= l * l)%R by (apply Rle_0_sqr). nra.
Qed.
(** A sum of squares known up to a share of it gives the length up to that share *)
Lemma sqrt_close q l d : (0 <= d <= 1)%R -> (0 < l)%R -> (Rabs (q - l * l) <= d * (l * l))%R -> (Rabs (sqrt q - l) <= d * l)%R.
Proof.
  intros D L Q. assert (LL : (0 < l * l)%R) by (apply Rmult_lt_0_compat; exact L). assert (B : ((1 - d) * (l * l) <= q <= (1 + d) * (l * l))%R) by (revert Q; unfold Rabs; destruct Rcase_abs; lra).
  assert (U : (sqrt q <= (1 + d) * l)%R).
  { rewrite <- (sqrt_square ((1 + d) * l)) by (apply Rmult_le_pos; lra). apply sqrt_le_1_alt. apply (Rle_trans _ _ _ (proj2 B)). assert (0 <= d * (1 + d) * (l * l))%R by (apply Rmult_le_pos; [apply Rmult_le_pos; lra|lra]). lra. }
  assert (W : ((1 - d) * l <= sqrt q)%R).
  { rewrite <- (sqrt_square ((1 - d) * l)) by (apply Rmult_le_pos; lra). apply sqrt_le_1_alt. apply (Rle_trans _ ((1 - d) * (l * l))); [|apply B]. assert (0 <= d * (1 - d) * (l * l))%R by (apply Rmult_le_pos; [apply Rmult_le_pos; lra|lra]). lra. }
  apply Rabs_le. lra.
Qed.
Lemma len_close x y l : (l = sqrt (x * x + y * y))%R -> (pow2 (-61) <= l)%R -> (Rabs (rnd (sqrt (rnd (rnd (x * x) + rnd (y * y)))) - l) <= 3 / 10000000 * l)%R.
Proof.
  intros EL L. pose proof (bpow_gt_0 radix2 (-61)) as P. assert (LL : (l * l = x * x + y * y)%R) by (rewrite EL; apply sqrt_sqrt; apply Rplus_le_le_0_compat; apply Rle_0_sqr).
  set (a := (x * x)%R) in *. set (b := (y * y)%R) in *. assert (A0 : (0 <= a)%R) by apply Rle_0_sqr. assert (B0 : (0 <= b)%R) by apply Rle_0_sqr.
  destruct (rnd_split a) as (e1 & h1 & E1 & H1 & Q1). destruct (rnd_split b) as (e2 & h2 & E2 & H2 & Q2). destruct (rnd_split (rnd a + rnd b)) as (e3 & h3 & E3 & H3 & Q3).
  assert (HS : (pow2 (-150) <= l * l / 100000000)%R).
  { apply (Rle_trans _ (pow2 (-61) * pow2 (-61) / 100000000)); [|unfold Rdiv; apply Rmult_le_compat_r; [lra|]; apply Rmult_le_compat; lra]. rewrite <- bpow_plus. change (-150)%Z with (-61 + -61 + -28)%Z. rewrite (bpow_plus _ (-61 + -61)%Z (-28)%Z). unfold Rdiv. apply Rmult_le_compat_l; [apply bpow_ge_0|].
    change (-28)%Z with (- (28))%Z. rewrite bpow_opp, <- (IZR_Zpower radix2 28) by lia. apply Rinv_le; [lra|apply IZR_le; vm_compute; discriminate]. }
  assert (S1 : (Rabs (rnd a + rnd b - l * l) <= l * l / 16777216 + 2 * (l * l / 100000000))%R).
  { rewrite Q1, Q2, LL. replace (a * (1 + e1) + h1 + (b * (1 + e2) + h2) - (a + b))%R with (a * e1 + b * e2 + (h1 + h2))%R by ring. rewrite LL in HS. apply (Rle_trans _ _ _ (Rabs_triang _ _)). pose proof (Rabs_triang (a * e1) (b * e2)) as T1. pose proof (Rabs_triang h1 h2) as T2.
    rewrite !Rabs_mult, (Rabs_pos_eq a), (Rabs_pos_eq b) in T1 by assumption. assert (a * Rabs e1 <= a * / IZR 16777216)%R by (apply Rmult_le_compat_l; assumption). assert (b * Rabs e2 <= b * / IZR 16777216)%R by (apply Rmult_le_compat_l; assumption). unfold Rdiv in *. lra. }
  assert (LP : (0 < l * l)%R) by (apply Rmult_lt_0_compat; lra). set (u := (rnd a + rnd b)%R) in *.
  assert (S2 : (Rabs (rnd u - l * l) <= 18 / 100000000 * (l * l))%R).
  { rewrite Q3. replace (u * (1 + e3) + h3 - l * l)%R with ((u - l * l) + ((u - l * l) * e3 + (l * l) * e3) + h3)%R by ring.
    apply (Rle_trans _ _ _ (Rabs_triang _ _)). pose proof (Rabs_triang (u - l * l) ((u - l * l) * e3 + l * l * e3)) as T1. pose proof (Rabs_triang ((u - l * l) * e3) (l * l * e3)) as T2. rewrite (Rabs_mult (u - l * l) e3), (Rabs_mult (l * l) e3), (Rabs_pos_eq (l * l)) in T2 by lra.
    assert (Rabs (u - l * l) * Rabs e3 <= (l * l / 16777216 + 2 * (l * l / 100000000)) * / IZR 16777216)%R by (apply Rmult_le_compat; try apply Rabs_pos; assumption). assert (l * l * Rabs e3 <= l * l * / IZR 16777216)%R by (apply Rmult_le_compat_l; lra). unfold Rdiv in *. lra. }
  pose proof (sqrt_close (rnd u) l (18 / 100000000) ltac:(lra) ltac:(lra) S2) as S3. set (s := sqrt (rnd u)) in *.
  assert (S4 : (Rabs s <= 11 / 10 * l)%R) by (replace s with ((s - l) + l)%R by ring; apply (Rle_trans _ _ _ (Rabs_triang _ _)); rewrite (Rabs_pos_eq l) by lra; lra).
  pose proof (rnd_close s _ l S4 L) as S5. replace (rnd s - l)%R with ((rnd s - s) + (s - l))%R by ring. apply (Rle_trans _ _ _ (Rabs_triang _ _)). unfold Rdiv in *. lra.
Qed.
Lemma unit_close s t x y l len c : (l = sqrt (s * s + t * t))%R -> (pow2 (-60) <= l)%R -> x = rnd s -> y = rnd t -> len = rnd (sqrt (rnd (rnd (x * x) + rnd (y * y)))) -> c = rnd (x / len) ->
  (pow2 (-61) <= len)%R /\ (Rabs (c * l - s) <= l / 1000000)%R.
Proof.
  intros EL L EX EY EN EC. pose proof (bpow_gt_0 radix2 (-61)) as P. pose proof (pow_succ (-61)) as P1. change (-61 + 1)%Z with (-60)%Z in P1. assert (L1 : (pow2 (-61) <= l)%R) by lra.
  assert (ST : (0 <= s * s + t * t)%R) by (apply Rplus_le_le_0_compat; apply Rle_0_sqr). assert (LL : (l * l = s * s + t * t)%R) by (rewrite EL; apply sqrt_sqrt, ST).
  assert (SL : (Rabs s <= l)%R) by (rewrite EL, <- (sqrt_Rsqr_abs s); apply sqrt_le_1_alt; unfold Rsqr; pose proof (Rle_0_sqr t) as T; unfold Rsqr in T; lra).
  assert (TL : (Rabs t <= l)%R) by (rewrite EL, <- (sqrt_Rsqr_abs t); apply sqrt_le_1_alt; unfold Rsqr; pose proof (Rle_0_sqr s) as T; unfold Rsqr in T; lra).
  pose proof (square_error x s l L1 SL EX) as SX. pose proof (square_error y t l L1 TL EY) as SY.
  assert (C1 : (Rabs (sqrt (x * x + y * y) - l) <= 26 / 100000000 * l)%R).
  { apply sqrt_close; [lra|lra|]. rewrite LL at 1. replace (x * x + y * y - (s * s + t * t))%R with ((x * x - s * s) + (y * y - t * t))%R by ring. apply (Rle_trans _ _ _ (Rabs_triang _ _)). lra. }
  set (m := sqrt (x * x + y * y)) in *. assert (ML : (99 / 100 * l <= m <= 101 / 100 * l)%R) by (revert C1; unfold Rabs; destruct Rcase_abs; lra).
  pose proof (len_close x y m eq_refl ltac:(lra)) as C2. rewrite <- EN in C2. assert (NL : (Rabs (len - l) <= 57 / 100000000 * l)%R) by (replace (len - l)%R with ((len - m) + (m - l))%R by ring; apply (Rle_trans _ _ _ (Rabs_triang _ _)); lra).
  assert (NB : (99 / 100 * l <= len <= 101 / 100 * l)%R) by (revert NL; unfold Rabs; destruct Rcase_abs; lra). split; [lra|].
  pose proof (rnd_close s l l SL L1) as CX. rewrite <- EX in CX. assert (XL : (Rabs x <= 1001 / 1000 * l)%R) by (replace x with ((x - s) + s)%R by ring; apply (Rle_trans _ _ _ (Rabs_triang _ _)); unfold Rdiv in *; lra).
  assert (PN : (0 < len)%R) by lra. assert (XD : (Rabs (x / len) <= 102 / 100)%R) by (unfold Rdiv; rewrite Rabs_mult, Rabs_inv, (Rabs_pos_eq len) by lra; apply (Rmult_le_reg_r len); [exact PN|]; rewrite Rmult_assoc, Rinv_l by lra; lra).
  assert (CC : (Rabs (c - x / len) <= 102 / 100 / 16777216 + / 1000000000000)%R).
  { destruct (rnd_split (x / len)) as (e & h & E & H & Q). rewrite EC, Q. replace (x / len * (1 + e) + h - x / len)%R with (x / len * e + h)%R by ring. apply (Rle_trans _ _ _ (Rabs_triang _ _)). rewrite Rabs_mult.
    assert (A : (Rabs (x / len) * Rabs e <= 102 / 100 * / IZR 16777216)%R) by (apply Rmult_le_compat; try apply Rabs_pos; assumption).
    assert (B : (pow2 (-150) <= / 1000000000000)%R) by (change (-150)%Z with (- (150))%Z; rewrite bpow_opp, <- (IZR_Zpower radix2 150) by lia; apply Rinv_le; [lra|apply IZR_le; vm_compute; discriminate]). unfold Rdiv in *. lra. }
  replace (c * l - s)%R with ((c - x / len) * l + (x / len) * (l - len) + (x - s))%R by (field; lra). apply (Rle_trans _ _ _ (Rabs_triang _ _)). pose proof (Rabs_triang ((c - x / len) * l) (x / len * (l - len))) as T. rewrite !Rabs_mult, (Rabs_pos_eq l) in T by lra.
  assert (A1 : (Rabs (c - x / len) * l <= (102 / 100 / 16777216 + / 1000000000000) * l)%R) by (apply Rmult_le_compat_r; [lra|exact CC]).
  assert (A2 : (Rabs (x / len) * Rabs (l - len) <= 102 / 100 * (57 / 100000000 * l))%R) by (apply Rmult_le_compat; try apply Rabs_pos; [exact XD|]; rewrite Rabs_minus_sym; exact NL).
  unfold Rdiv in *. lra.
Qed.
Lemma real_val x : fin x -> real x = val x.
Proof.
  intros F. rewrite <- (exact_val x F). unfold real, Rdiv. change (-149)%Z with (- (149))%Z. rewrite bpow_opp, <- (IZR_Zpower radix2 149) by lia. reflexivity.
Qed.
Lemma far_step x y : within 54 x -> within 54 y -> far_apart x y -> (pow2 (-60) <= Rabs (val y - val x))%R.
Proof.
  intros X Y A. rewrite Rabs_minus_sym. rewrite <- (exact_val x (proj1 X)), <- (exact_val y (proj1 Y)). rewrite <- Rmult_minus_distr_r, <- minus_IZR, Rabs_mult, (Rabs_pos_eq (pow2 (-149))) by apply bpow_ge_0. rewrite <- abs_IZR.
  change (-60)%Z with (89 + -149)%Z. rewrite bpow_plus. apply Rmult_le_compat_r; [apply bpow_ge_0|]. rewrite <- (IZR_Zpower radix2 89) by lia. apply IZR_le, A.
Qed.
Lemma sqrt_rnd x : val (sqrt32 x) = rnd (sqrt (val x)).
Proof. destruct (Bsqrt_correct 24 128 FloatBounds.P24 FloatBounds.M24 mode_NE (b32_of x)) as (E & _). unfold val. rewrite of_sqrt. exact E. Qed.
Lemma normal_across ax ay bx by_ : within 54 ax -> within 54 ay -> within 54 bx -> within 54 by_ -> far_apart ax bx \/ far_apart ay by_ ->
  unit_across ax ay bx by_ (fst (normalize2 (sub32 ay by_, sub32 bx ax))) (snd (normalize2 (sub32 ay by_, sub32 bx ax))).
Proof.
  intros AX AY BX BY D. unfold unit_across. cbv zeta. rewrite (real_val ax), (real_val ay), (real_val bx), (real_val by_) by (apply AX || apply AY || apply BX || apply BY).
  destruct (sub_val 54 _ _ ltac:(lia) AY BY) as [WX VX]. destruct (sub_val 54 _ _ ltac:(lia) BX AX) as [WY VY]. set (x := sub32 ay by_) in *. set (y := sub32 bx ax) in *.
  destruct (mul_val 55 55 x x ltac:(lia) WX WX) as [MX MVX]. destruct (mul_val 55 55 y y ltac:(lia) WY WY) as [MY MVY]. destruct (add_val 110 _ _ ltac:(lia) MX MY) as [WS VS].
  set (s := (val ay - val by_)%R) in *. set (t := (val bx - val ax)%R) in *. replace (val by_ - val ay)%R with (- s)%R by (unfold s; ring).
  set (l := sqrt (t * t + - s * - s)). assert (EL : (l = sqrt (s * s + t * t))%R) by (unfold l; f_equal; ring). assert (EL' : (l = sqrt (t * t + s * s))%R) by (unfold l; f_equal; ring).
  assert (SQ : forall u v : R, (Rabs u <= sqrt (u * u + v * v))%R) by (intros u v; rewrite <- (sqrt_Rsqr_abs u); apply sqrt_le_1_alt; unfold Rsqr; pose proof (Rle_0_sqr v) as T; unfold Rsqr in T; lra).
  assert (L : (pow2 (-60) <= l)%R).
  { destruct D as [D|D]; [rewrite EL'; apply (Rle_trans _ (Rabs t)); [apply far_step; assumption|apply SQ]|]. rewrite EL. apply (Rle_trans _ (Rabs s)); [|apply SQ]. unfold s. rewrite Rabs_minus_sym. apply far_step; assumption. }
  assert (VN : val (length2 (x, y)) = rnd (sqrt (rnd (rnd (val x * val x) + rnd (val y * val y))))).
  { unfold length2. cbn [fst snd]. rewrite sqrt_rnd, VS, MVX, MVY. reflexivity. }
  assert (FN : fin (length2 (x, y))).
  { unfold length2. cbn [fst snd]. refine (proj1 (proj1 (sqrt_val 56 _ ltac:(lia) _ _))); [apply (within_mono 111); [lia|exact WS]|]. rewrite VS. apply round_pos, Rplus_le_le_0_compat; [rewrite MVX|rewrite MVY]; apply round_pos, Rle_0_sqr. }
  destruct (unit_close s t (val x) (val y) l _ _ EL L VX VY VN eq_refl) as [N1 CX]. destruct (unit_close t s (val y) (val x) l (val (length2 (x, y))) _ EL' L VY VX ltac:(rewrite VN, (Rplus_comm (rnd (val x * val x))); reflexivity) eq_refl) as [_ CY].
  assert (PN : (pow2 (-61) <= Rabs (val (length2 (x, y))))%R) by (apply (Rle_trans _ _ _ N1), Rle_abs). pose proof (bpow_gt_0 radix2 (-61)) as P.
  unfold normalize2. replace (eq32b (length2 (x, y)) f32_zero) with false by (symmetry; destruct (eq32b _ _) eqn:Q; [|reflexivity]; destruct zero_val as [FZ VZ]; apply (eq_val _ _ FN FZ) in Q; rewrite VZ in Q; lra).
  destruct (div_val 55 (-61) x (length2 (x, y)) ltac:(lia) WX PN) as [[FX _] DX]. destruct (div_val 55 (-61) y (length2 (x, y)) ltac:(lia) WY PN) as [[FY _] DY]. cbn [fst snd].
  rewrite (real_val _ FX), (real_val _ FY), DX, DY. split; [|exact CY]. replace (rnd (val x / val (length2 (x, y))) * l + - s)%R with (rnd (val x / val (length2 (x, y))) * l - s)%R by ring. exact CX.
Qed.
(** ** The width of a flat ramp *)
Lemma flat_width r curve i : Forall good3 curve -> is_habitrail r = false -> within 20 (Ramp_width_bottom r) -> within 20 (Ramp_width_top r) -> (i < List.length curve)%nat ->
  fin (width_at r true curve i) /\ val (width_at r true curve i) = height_of_share 0 (val (percentage curve i)) (val (Ramp_width_bottom r)) (val (Ramp_width_top r)).
Proof.
  intros F H WB WT I. destruct (percentage_unit curve i F I) as [FP [P0 P1]]. unfold width_at. rewrite H. cbn [andb]. assert (W : one_wire r = false) by (unfold is_habitrail, one_wire in *; destruct (Ramp_ramp_type r); (reflexivity || discriminate)). rewrite W.
  unfold height_of_share. destruct (sub_val 20 _ _ ltac:(lia) WT WB) as [WS <-]. assert (WP : within 0 (percentage curve i)) by (split; [exact FP|rewrite Rabs_pos_eq by lra; exact P1]).
  destruct (mul_val 0 21 _ _ ltac:(lia) WP WS) as [WM <-]. destruct (add_val 21 _ _ ltac:(lia) WM (within_mono 20 21 _ ltac:(lia) WB)) as [[FH _] VH]. split; [exact FH|]. rewrite Rplus_0_l, VH. f_equal. f_equal. symmetry. apply round_generic; auto with typeclass_instances. apply val_format.
Qed.
Lemma at_most_within p x : 0 <= p <= 100 -> at_most p x -> within p x.
Proof.
  intros P [F A]. assert (FX : fin x) by (unfold finite32, fin in *; rewrite <- (b32_of_value x) in F; destruct (b32_of x); cbn in *; try contradiction; reflexivity). split; [exact FX|].
  rewrite <- (exact_val x FX), Rabs_mult, (Rabs_pos_eq (pow2 (-149))) by apply bpow_ge_0. rewrite <- abs_IZR. replace (pow2 p) with (IZR (2 ^ p * 2 ^ 149) * pow2 (-149))%R; [apply Rmult_le_compat_r; [apply bpow_ge_0|apply IZR_le, A]|].
  rewrite mult_IZR. change 2%Z with (radix_val radix2) at 1 2. rewrite !IZR_Zpower by lia. rewrite Rmult_assoc, <- bpow_plus. change (149 + -149)%Z with 0%Z. cbn [bpow]. ring.
Qed.
Lemma exact_error q x y : 0 <= q + 149 -> fin x -> (Rabs (val x - y) <= pow2 q)%R -> forall z, (y = IZR z * pow2 (-149))%R -> Z.abs (exact x - z) <= 2 ^ (q + 149).
Proof.
  intros Q F E z ->. rewrite <- (exact_val x F), <- Rmult_minus_distr_r, Rabs_mult, (Rabs_pos_eq (pow2 (-149))) in E by apply bpow_ge_0. rewrite <- minus_IZR, <- abs_IZR in E. apply le_IZR. change 2%Z with (radix_val radix2). rewrite IZR_Zpower by exact Q.
  apply (Rmult_le_reg_r (pow2 (-149))); [apply bpow_gt_0|]. rewrite <- bpow_plus. replace (q + 149 + -149)%Z with q by lia. exact E.
Qed.
Lemma height_down z z' p p' b t : (z' <= z)%R -> (p <= p')%R -> (t <= b)%R -> (height_of_share z' p' b t <= height_of_share z p b t)%R.
Proof.
  intros Z P B. unfold height_of_share. apply round_le; auto with typeclass_instances. apply Rplus_le_compat_r. apply round_le; auto with typeclass_instances. apply Rplus_le_compat; [exact Z|]. apply round_le; auto with typeclass_instances.
  rewrite !(Rmult_comm _ (rnd (t - b))). apply Rmult_le_compat_neg_l; [|exact P]. rewrite <- (round_0 radix2 fexp24 (round_mode mode_NE)). apply round_le; auto with typeclass_instances. lra.
Qed.
Lemma zero_format : generic_format radix2 fexp24 0.
Proof. apply generic_format_0. Qed.
Lemma fin_finite x : fin x -> finite32 x.
Proof. unfold finite32, fin. rewrite <- (b32_of_value x). destruct (b32_of x); cbn; trivial; discriminate. Qed.
Lemma share_first b t : height_of_share 0 0 (val b) t = val b.
Proof. rewrite height_bottom by apply zero_format. rewrite Rplus_0_l. apply round_generic; auto with typeclass_instances. apply val_format. Qed.
Lemma share_last p b t : 0 <= p <= 20 -> within p b -> within p t -> (Rabs (height_of_share 0 1 (val b) (val t) - val t) <= pow2 (p - 20))%R.
Proof.
  intros P B T. pose proof (height_top p 0 (val b) (val t) P ltac:(rewrite Rabs_R0; apply bpow_ge_0) (proj2 B) (proj2 T)) as E. rewrite Rplus_0_l in E. exact E.
Qed.
Lemma one_format : generic_format radix2 fexp24 1.
Proof. change 1%R with (pow2 0). apply pow_format. lia. Qed.
Lemma ratio_ends : rnd (1 - 0) = 1%R /\ rnd (1 - 1) = 0%R.
Proof. split; [rewrite Rminus_0_r; apply round_generic; auto with typeclass_instances; apply one_format|]. replace (1 - 1)%R with 0%R by ring. apply round_0; auto with typeclass_instances. Qed.
Lemma ratio_mono p p' : (p <= p')%R -> (rnd (1 - p') <= rnd (1 - p))%R.
Proof. intros P. apply round_le; auto with typeclass_instances. lra. Qed.
Lemma table_share low high x : within 20 low -> within 20 high -> exact low = 0 -> 2 ^ 49 <= exact high -> fin x -> 0 <= exact x <= exact high -> unit_interval (mul32 x (div32 f32_one (sub32 high low))).
Proof.
  intros WL WH L0 H X [X0 X1]. assert (VL : val low = 0%R) by (rewrite <- (exact_val low (proj1 WL)), L0; apply Rmult_0_l). destruct (sub_val 20 high low ltac:(lia) WH WL) as [WS VS].
  assert (ES : val (sub32 high low) = val high) by (rewrite VS, VL, Rminus_0_r; apply round_generic; auto with typeclass_instances; apply val_format).
  apply share_unit; [apply (within_mono 21); [lia|exact WS]| |exact X|].
  - rewrite ES, <- (exact_val high (proj1 WH)). change (-100)%Z with (49 + -149)%Z. rewrite bpow_plus. apply Rmult_le_compat_r; [apply bpow_ge_0|]. rewrite <- (IZR_Zpower radix2 49) by lia. apply IZR_le. exact H.
  - rewrite ES. split; [|apply exact_le; [exact X|apply WH|exact X1]]. rewrite <- (exact_val x X). apply Rmult_le_pos; [apply IZR_le, X0|apply bpow_ge_0].
Qed.
Lemma above_not_below x y : lt32 x y = true -> le32 y x -> False.
Proof.
  unfold lt32, le32, SFltb, SFleb. rewrite <- (b32_of_value x), <- (b32_of_value y). intros L U. change (SFcompare (B2SF (b32_of y)) (B2SF (b32_of x))) with (Bcompare (b32_of y) (b32_of x)) in U. rewrite Bcompare_swap in U.
  change (SFcompare (B2SF (b32_of x)) (B2SF (b32_of y))) with (Bcompare (b32_of x) (b32_of y)) in L. destruct (Bcompare (b32_of x) (b32_of y)) as [[]|]; discriminate.
Qed.

(** Lemmas about the numbers of plungers. *)
From Verif Require Import Base Text Json Image Sound Quantize ColorText JsonFloat Cfb Mesh SpecMesh Common Enums ItemRamp QuantizeFacts QuantizeMono FlipFacts Browser Builtin SpecBuiltin BuiltinFacts BuiltinReals Polygon SpecPolygon Smooth FloatBounds SmoothFacts SpecSmooth PropertiesSmooth Walls SpecWalls WallsReals RubberMesh RubberReals PropertiesRubber Ramps SpecRamps RampReals Flats SpecFlats FlatReals BaseFacts ItemPlunger Plungers SpecPlungers PlungerFacts.
From Coq Require Import Reals Lra Floats.SpecFloat ZifyBool.
From Flocq Require Import Core.Core Relative Mult_error IEEE754.BinarySingleNaN.
Local Open Scope Z_scope.

#[local] Instance P24 : FLX.Prec_gt_0 24 := eq_refl.
#[local] Instance M24 : Prec_lt_emax 24 128 := eq_refl.
#[local] Instance vexp24 : Valid_exp fexp24 := fexp_correct 24 128 P24.
#[local] Instance vrnd24 : Valid_rnd (round_mode mode_NE) := valid_rnd_round_mode mode_NE.

(** Numbers that are given *)
Definition numberb (x : f32) : bool := match f32_value x with S754_finite _ _ _ | S754_zero _ => true | _ => false end.
Lemma numberb_fin x : numberb x = true -> fin x.
Proof. unfold numberb. intros H. apply finite_fin. unfold finite32. destruct (f32_value x); trivial; discriminate. Qed.
Definition inside (low high x : f32) : bool := numberb low && numberb high && numberb x && le32b low x && le32b x high.
Lemma inside_val low high x : inside low high x = true -> fin x /\ (val low <= val x <= val high)%R.
Proof.
  unfold inside. rewrite !Bool.andb_true_iff. intros [[[[L H] X] A] B]. apply numberb_fin in L, H, X. split; [exact X|]. split; apply le_val; assumption.
Qed.
Definition f32_quarter : f32 := Z_to_w32 0x3e800000.
Definition f32_three_quarters : f32 := Z_to_w32 0x3f400000.
Lemma quarters : val f32_zero = 0%R /\ val f32_quarter = (/ 4)%R /\ val f32_half = (/ 2)%R /\ val f32_three_quarters = (3 / 4)%R /\ val f32_one = 1%R.
Proof.
  split; [reflexivity|]. split; [|split; [apply half_val|split; [|apply one_val]]].
  - rewrite (proj2 (known f32_quarter false 8388608 (-25) eq_refl)). cbn [SpecFloat.cond_Zopp]. change (pow2 (-25)) with (/ IZR 33554432)%R. lra.
  - rewrite (proj2 (known f32_three_quarters false 12582912 (-24) eq_refl)). cbn [SpecFloat.cond_Zopp]. change (pow2 (-24)) with (/ IZR 16777216)%R. lra.
Qed.
Lemma given low high x a b : inside low high x = true -> val low = a -> val high = b -> finite32 x /\ (a <= real x <= b)%R.
Proof. intros H <- <-. apply inside_val in H. destruct H as [F V]. split; [apply fin_finite, F|]. rewrite real_val by exact F. exact V. Qed.
Lemma each_given low high f n a b : forallb (fun i => inside low high (f i)) (steps n) = true -> val low = a -> val high = b -> forall i, 0 <= i < n -> finite32 (f i) /\ (a <= real (f i) <= b)%R.
Proof. intros H A B i I. rewrite forallb_forall in H. apply (given low high); [apply H, steps_in, I|exact A|exact B]. Qed.
Lemma around_unit j : 0 <= j < 16 -> finite32 (around_u 16 j) /\ (0 <= real (around_u 16 j) <= 1)%R.
Proof. destruct quarters as (Q0 & _ & _ & _ & Q1). apply (each_given f32_zero f32_one (around_u 16) 16 0 1); [vm_compute; reflexivity|exact Q0|exact Q1]. Qed.
Lemma rod_band j : 0 <= j < 5 -> finite32 (rod_tv j) /\ (/ 2 <= real (rod_tv j) <= 3 / 4)%R.
Proof. destruct quarters as (_ & _ & Q2 & Q3 & _). apply (each_given f32_half f32_three_quarters rod_tv 5); [vm_compute; reflexivity|exact Q2|exact Q3]. Qed.
Lemma ring_band x : In x [f32_0_26; f32_0_33; f32_0_42; f32_0_49] -> finite32 x /\ (/ 4 <= real x <= / 2)%R.
Proof. destruct quarters as (_ & Q1 & Q2 & _). intros I. apply (given f32_quarter f32_half); [|exact Q1|exact Q2]. repeat destruct I as [<-|I]; try destruct I; vm_compute; reflexivity. Qed.
Lemma flat_band x : In x [f32_zero; f32_one] -> finite32 x /\ (0 <= real x <= 1)%R.
Proof. destruct quarters as (Q0 & _ & _ & _ & Q1). intros I. apply (given f32_zero f32_one); [|exact Q0|exact Q1]. repeat destruct I as [<-|I]; try destruct I; vm_compute; reflexivity. Qed.
Lemma cap_band : finite32 f32_0_74 /\ (/ 2 <= real f32_0_74 <= 3 / 4)%R.
Proof. destruct quarters as (_ & _ & Q2 & Q3 & _). apply (given f32_half f32_three_quarters); [vm_compute; reflexivity|exact Q2|exact Q3]. Qed.
Lemma coil_band j : 0 <= j < 8 -> let tv := add32 f32_0_76 (mul32 (div32 (int32 j) (int32 8)) f32_0_22) in finite32 tv /\ (3 / 4 <= real tv <= 1)%R.
Proof. destruct quarters as (_ & _ & _ & Q3 & Q4). apply (each_given f32_three_quarters f32_one (fun j => add32 f32_0_76 (mul32 (div32 (int32 j) (int32 8)) f32_0_22)) 8); [vm_compute; reflexivity|exact Q3|exact Q4]. Qed.

(** Waves *)
Lemma half_within : within (-1) f32_half.
Proof. destruct half_val as [F V]. split; [exact F|]. rewrite V. change (pow2 (-1)) with (/ 2)%R. rewrite Rabs_pos_eq; lra. Qed.
Lemma half_format : generic_format radix2 fexp24 (/ 2)%R.
Proof. change (/ 2)%R with (pow2 (-1)). apply pow_format. lia. Qed.
Lemma wave_half x : within 0 x -> let u := add32 f32_half (mul32 f32_half x) in finite32 u /\ (0 <= real u <= 1)%R.
Proof.
  intros W. cbv zeta. destruct half_val as [_ VH]. destruct (mul_val (-1) 0 _ _ ltac:(lia) half_within W) as [WM VM]. replace (-1 + 0) with (-1) in WM by lia. destruct (add_val (-1) _ _ ltac:(lia) half_within WM) as [WA VA].
  destruct WA as [FA _]. split; [apply fin_finite, FA|]. rewrite real_val by exact FA. destruct WM as [_ BM]. rewrite VA, VH. change (pow2 (-1)) with (/ 2)%R in BM. apply Rabs_le_inv in BM. split.
  - apply round_ge_generic; auto with typeclass_instances; [apply generic_format_0|lra].
  - apply round_le_generic; auto with typeclass_instances; [change 1%R with (pow2 0); apply pow_format; lia|lra].
Qed.
Lemma wave_unit x : within 0 x -> let u := mul32 (add32 x f32_one) f32_half in finite32 u /\ (0 <= real u <= 1)%R.
Proof.
  intros W. cbv zeta. destruct one_val as [F1 V1]. assert (W1 : within 0 f32_one) by (split; [exact F1|rewrite V1, Rabs_R1; change (pow2 0) with 1%R; lra]). destruct (add_val 0 _ _ ltac:(lia) W W1) as [WA VA].
  destruct (mul_val (0 + 1) (-1) _ _ ltac:(lia) WA half_within) as [WM VM]. destruct WM as [FM _]. split; [apply fin_finite, FM|]. rewrite real_val by exact FM. destruct half_val as [_ VH].
  destruct WA as [_ BA]. change (pow2 (0 + 1)) with 2%R in BA. destruct W as [_ BW]. change (pow2 0) with 1%R in BW. apply Rabs_le_inv in BW, BA. assert (P : (0 <= val (add32 x f32_one))%R) by (rewrite VA, V1; apply round_ge_generic; auto with typeclass_instances; [apply generic_format_0|lra]).
  rewrite VM, VH. split; [apply round_ge_generic; auto with typeclass_instances; [apply generic_format_0|lra]|]. apply round_le_generic; auto with typeclass_instances; [change 1%R with (pow2 0); apply pow_format; lia|lra].
Qed.
Lemma two_val : within 1 f32_two.
Proof. destruct (known f32_two false 8388608 (-22) eq_refl) as [F V]. split; [exact F|]. rewrite V. cbn [SpecFloat.cond_Zopp]. change (pow2 (-22)) with (/ IZR 4194304)%R. change (pow2 1) with 2%R. rewrite Rabs_pos_eq; lra. Qed.
Lemma pi_within : within 2 f32_pi.
Proof. apply (within_known f32_pi false 13176795 (-22) 24); [reflexivity|lia|lia]. Qed.
Lemma cap_angle i : 0 <= i < 16 -> finite32 (div32 (mul32 (mul32 f32_two f32_pi) (int32 i)) (int32 16)).
Proof. intros I. apply fin_finite. pose proof (proj1 (forallb_forall (fun i => numberb (div32 (mul32 (mul32 f32_two f32_pi) (int32 i)) (int32 16))) (steps 16)) eq_refl i ltac:(apply steps_in; exact I)) as H. apply numberb_fin, H. Qed.
Lemma cap_unit cos i : bounded_function cos -> 0 <= i < 16 -> finite32 (cap_u cos 16 i) /\ (0 <= real (cap_u cos 16 i) <= 1)%R.
Proof. intros B I. apply wave_half. apply bounded_at; [exact B|apply cap_angle, I]. Qed.
(** The turns of a spring *)
Lemma turn_24 : within 5 (int32 24) /\ val (int32 24) = 24%R.
Proof. destruct (int_val 24 ltac:(lia)) as [F V]. split; [split; [exact F|rewrite V; change (pow2 5) with 32%R; rewrite Rabs_pos_eq; lra]|exact V]. Qed.
Lemma floor_val max x : fin x -> (0 <= val x)%R -> (val x <= IZR max)%R -> float_to_uint max (f32_value x) = Zfloor (val x).
Proof. intros F A B. rewrite <- b32_of_value. apply float_to_uint_floor; assumption. Qed.
Lemma rings_count p : moderate (turns p) -> (0 <= real (turns p))%R -> (24 * real (turns p) - 101 / 100 - real (turns p) / 100000 < IZR (rings p) <= 24 * real (turns p) + real (turns p) / 100000 + / 100)%R.
Proof.
  intros M P. apply moderate_within in M. pose proof M as [F B]. rewrite real_val in * by exact F. unfold rings. destruct turn_24 as [W24 V24]. destruct (mul_val 20 5 _ _ ltac:(lia) M W24) as [[FM BM] VM].
  assert (V0 : (0 <= val (mul32 (turns p) (int32 24)))%R) by (rewrite VM, V24; apply round_ge_generic; auto with typeclass_instances; [apply generic_format_0|lra]).
  change (pow2 (20 + 5)) with (IZR 33554432) in BM. change (pow2 20) with (IZR 1048576) in B. rewrite V24 in VM. clear V24 W24 M F. revert FM BM VM V0 B P. generalize (mul32 (turns p) (int32 24)). generalize (val (turns p)). intros t x FM BM VM V0 B P.
  assert (VU : (val x <= IZR 18446744073709551615)%R) by (apply Rabs_le_inv in BM; lra).
  rewrite (floor_val _ _ FM V0 VU). pose proof (Zfloor_lb (val x)) as L. pose proof (Zfloor_ub (val x)) as U.
  destruct (rnd_split (t * 24)) as (e & h & E & H & R). rewrite <- VM in R. assert (H' : (Rabs h <= / 1000)%R) by (apply (Rle_trans _ _ _ H); apply (Rle_trans _ (pow2 (-10))); [apply bpow_le; lia|change (pow2 (-10)) with (/ IZR 1024)%R; lra]).
  apply Rabs_le_inv in E, H'. revert L U R. generalize (IZR (Zfloor (val x))) (val x). intros f m L U R. clear - P L U R E H'.
  assert (TE : (- (t / IZR 16777216) <= t * e <= t / IZR 16777216)%R) by (split; nra). assert (TE2 : (t * 24 * (1 + e) = 24 * t + 24 * (t * e))%R) by ring. rewrite TE2 in R. lra.
Qed.
Lemma rings_most p : moderate (turns p) -> (0 <= real (turns p) <= 341)%R -> rings p <= 8192.
Proof. intros M [P Q]. pose proof (rings_count p M P) as [_ U]. assert (IZR (rings p) < 8193)%R by lra. apply lt_IZR in H. lia. Qed.
Lemma rings_few p : moderate (turns p) -> (342 <= real (turns p))%R -> 8192 < rings p.
Proof. intros M P. pose proof (rings_count p M ltac:(lra)) as [U _]. apply lt_IZR. apply moderate_within in M. destruct M as [F B]. rewrite real_val in * by exact F. apply Rabs_le_inv in B. change (pow2 20) with (IZR 1048576) in B. lra. Qed.
Lemma helix_finite p i : moderate (turns p) -> (/ 2 <= real (turns p))%R -> 0 <= i < rings p -> finite32 (helix_angle p i).
Proof.
  intros M P I. pose proof (rings_count p M ltac:(lra)) as [L U]. apply moderate_within in M. pose proof M as [F B]. rewrite real_val in * by exact F. apply Rabs_le_inv in B. change (pow2 20) with (IZR 1048576) in B.
  assert (N : rings p <= 2 ^ 25) by (apply le_IZR; change (2 ^ 25) with 33554432; lra).
  unfold helix_angle. rewrite total_rings. change (total_turns p) with (turns p). revert I N. generalize (rings p). intros n I N. apply fin_finite.
  destruct (int_rnd i ltac:(lia)) as [FI VI]. destruct (int_rnd n ltac:(lia)) as [FN VN].
  assert (WI : within 26 (int32 i)). { split; [exact FI|]. rewrite VI. apply round_small; [lia|]. rewrite Rabs_pos_eq by (apply IZR_le; lia). change (pow2 26) with (IZR 67108864). apply IZR_le. lia. }
  assert (WN : (pow2 0 <= Rabs (val (int32 n)))%R). { rewrite VN. apply abs_round_ge_generic; auto with typeclass_instances; [apply pow_format; lia|]. rewrite Rabs_pos_eq by (apply IZR_le; lia). change (pow2 0) with 1%R. apply IZR_le. lia. }
  destruct (div_val 26 0 _ _ ltac:(lia) WI WN) as [WD _]. replace (26 - 0) with 26 in WD by lia. destruct (mul_val 26 20 _ _ ltac:(lia) WD M) as [W1 _]. destruct (mul_val (26 + 20) 1 _ _ ltac:(lia) W1 two_val) as [W2 _]. destruct (mul_val (26 + 20 + 1) 2 _ _ ltac:(lia) W2 pi_within) as [[FF _] _]. exact FF.
Qed.
(** The share of the tip *)
Lemma quarter_format x : generic_format radix2 fexp24 x -> (pow2 (-100) <= x)%R -> generic_format radix2 fexp24 (x / 4)%R.
Proof.
  intros G L. replace (x / 4)%R with (x * pow2 (-2))%R by (change (pow2 (-2)) with (/ 4)%R; reflexivity). apply (mult_bpow_exact_FLT radix2 (-149) 24); [exact G|]. assert (-100 < mag radix2 x); [|lia]. apply Z.lt_le_trans with (-99); [lia|]. apply mag_ge_bpow. rewrite Rabs_pos_eq; [exact L|]. pose proof (bpow_gt_0 radix2 (-100)). lra.
Qed.
Lemma share_quarter len t : within 20 len -> (pow2 (-20) <= val len)%R -> fin (tip_y t) -> (0 <= val (tip_y t) <= val len)%R -> finite32 (tip_tv len t) /\ (0 <= real (tip_tv len t) <= / 4)%R.
Proof.
  intros [FL BL] L FY [Y0 Y1]. unfold tip_tv. assert (LP : (0 < val len)%R) by (pose proof (bpow_gt_0 radix2 (-20)); lra). rewrite Rabs_pos_eq in BL by lra.
  assert (WY : within 20 (tip_y t)) by (split; [exact FY|rewrite Rabs_pos_eq; lra]). destruct (inside_val f32_zero f32_quarter f32_0_24 eq_refl) as [FC VC]. destruct quarters as (Q0 & Q1 & _). rewrite Q0, Q1 in VC.
  assert (WC : within (-2) f32_0_24) by (split; [exact FC|change (pow2 (-2)) with (/ 4)%R; rewrite Rabs_pos_eq; lra]). destruct (mul_val (-2) 20 _ _ ltac:(lia) WC WY) as [WM VM].
  assert (M0 : (0 <= val (mul32 f32_0_24 (tip_y t)) <= val len / 4)%R). { rewrite VM. split; [apply round_ge_generic; auto with typeclass_instances; [apply generic_format_0|nra]|]. apply round_le_generic; auto with typeclass_instances; [apply quarter_format; [apply val_format|apply (Rle_trans _ (pow2 (-20))); [apply bpow_le; lia|exact L]]|nra]. }
  assert (NL : (pow2 (-20) <= Rabs (val len))%R) by (rewrite Rabs_pos_eq; lra). destruct (div_val (-2 + 20) (-20) _ _ ltac:(lia) WM NL) as [[FD _] VD]. split; [apply fin_finite, FD|]. rewrite real_val by exact FD. rewrite VD. split.
  - apply round_ge_generic; auto with typeclass_instances; [apply generic_format_0|]. apply Rmult_le_pos; [lra|]. left. apply Rinv_0_lt_compat, LP.
  - apply round_le_generic; auto with typeclass_instances; [change (/ 4)%R with (pow2 (-2)); apply pow_format; lia|]. apply (Rmult_le_reg_r (val len)); [exact LP|]. unfold Rdiv. rewrite Rmult_assoc, Rinv_l by lra. lra.
Qed.

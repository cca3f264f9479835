(** Lemmas about flat meshes. *)
From Verif Require Import Base Text Json Image Sound Quantize ColorText JsonFloat Cfb Mesh SpecMesh Common Enums ItemRamp QuantizeFacts QuantizeMono FlipFacts Browser Builtin SpecBuiltin BuiltinFacts BuiltinReals Polygon SpecPolygon Smooth FloatBounds SmoothFacts SpecSmooth PropertiesSmooth Walls SpecWalls WallsReals RubberMesh RubberReals PropertiesRubber Ramps SpecRamps RampReals Transform TransformReals ItemFlasher ItemLight ItemDecal Flats SpecFlats BaseFacts.
From Coq Require Import Reals Lra Floats.SpecFloat ZifyBool.
From Flocq Require Import Core.Core Relative Mult_error IEEE754.BinarySingleNaN.
Local Open Scope Z_scope.

#[local] Instance P24 : FLX.Prec_gt_0 24 := eq_refl.
#[local] Instance M24 : Prec_lt_emax 24 128 := eq_refl.
#[local] Instance vexp24 : Valid_exp fexp24 := fexp_correct 24 128 P24.
#[local] Instance vrnd24 : Valid_rnd (round_mode mode_NE) := valid_rnd_round_mode mode_NE.

Notation tiny := (44 / 100000000000000000000 / 1000000000000)%R.
Lemma rnd_near x m : (Rabs x <= m)%R -> (Rabs (rnd x - x) <= m / 16777216 + tiny)%R.
Proof. intros H. apply (rnd_close x m _ H tiny_61). Qed.

(** ** The texture over the box around the outline, or over the table *)
Lemma abs_equiv (x : b32) : SFabs (B2SF x) = B2SF (Babs x).
Proof. destruct x; reflexivity. Qed.
Lemma abs_value a : f32_value (abs32 a) = SFabs (f32_value a).
Proof. unfold abs32. rewrite <- (b32_of_value a), abs_equiv. apply value_bits, valid_b. Qed.
Lemma abs_fin x : fin x -> fin (abs32 x) /\ val (abs32 x) = Rabs (val x).
Proof.
  intros F. assert (E : b32_of (abs32 x) = Babs (b32_of x)) by (apply B2SF_inj; rewrite b32_of_value, abs_value, <- b32_of_value; apply abs_equiv).
  unfold fin, val. rewrite E, is_finite_Babs, B2R_Babs. split; [exact F|reflexivity].
Qed.
Lemma micro_val : fin f32_1e6 /\ (pow2 (-20) <= val f32_1e6 <= 1)%R.
Proof.
  destruct (known f32_1e6 false 8796093 (-43) eq_refl) as [F V]. split; [exact F|]. rewrite V. cbn [cond_Zopp]. change (pow2 (-43)) with (/ IZR 8796093022208)%R. change (pow2 (-20)) with (/ IZR 1048576)%R. lra.
Qed.
Lemma inverse_unit lo hi x : within 54 lo -> within 54 hi -> within 54 x -> (val lo <= val x <= val hi)%R -> unit_interval (mul32 (sub32 x lo) (inverse_size lo hi)).
Proof.
  intros WL WH WX [LX XH]. destruct (sub_val 54 hi lo ltac:(lia) WH WL) as [WW VW]. destruct (sub_val 54 x lo ltac:(lia) WX WL) as [WA VA]. destruct (abs_fin _ (proj1 WW)) as [FA AV]. destruct micro_val as [FM VM].
  unfold inverse_size. destruct (lt32 f32_1e6 (abs32 (sub32 hi lo))) eqn:E.
  - apply (lt_val _ _ FM FA) in E. rewrite AV, VW, Rabs_pos_eq in E by (apply round_pos; lra).
    apply (ratio_unit lo hi x WL WH WX (conj LX XH)). destruct (Rle_or_lt (pow2 (-100)) (val hi - val lo)) as [L|L]; [exact L|exfalso].
    assert (rnd (val hi - val lo) <= pow2 (-100))%R by (apply round_le_generic; auto with typeclass_instances; [apply pow_format; lia|lra]). assert (pow2 (-100) < pow2 (-20))%R by (apply bpow_lt; lia). lra.
  - assert (E' : ~ (val f32_1e6 < val (abs32 (sub32 hi lo)))%R) by (intros C; apply (lt_val _ _ FM FA) in C; congruence). rewrite AV, VW, Rabs_pos_eq in E' by (apply round_pos; lra).
    assert (A0 : (0 <= val (sub32 x lo) <= 1)%R).
    { rewrite VA. split; [apply round_pos; lra|]. apply (Rle_trans _ (rnd (val hi - val lo))); [apply round_le; auto with typeclass_instances; lra|lra]. }
    destruct one_val as [FO VO]. destruct (mul_small (sub32 x lo) f32_one (proj1 WA) FO) as [FP VP]; [rewrite VO, Rmult_1_r, Rabs_pos_eq by lra; change (pow2 2) with 4%R; lra|].
    apply unit_of; [exact FP|]. rewrite VP, VO, Rmult_1_r, round_generic; auto with typeclass_instances. apply val_format.
Qed.

(** ** The smallest and the largest *)
Lemma fold_smallest l : forall a, fin a -> Forall fin l -> let m := fold_left (fun a x => if lt32 x a then x else a) l a in fin m /\ In m (a :: l) /\ forall x, In x (a :: l) -> (val m <= val x)%R.
Proof.
  induction l as [|y l IH]; intros a FA F; cbn [fold_left]; [split; [exact FA|]; split; [left; reflexivity|]; intros x [<-|[]]; lra|].
  inversion F as [|? ? FY F']; subst. specialize (IH (if lt32 y a then y else a)). destruct (lt32 y a) eqn:E; destruct (IH ltac:(assumption) F') as (A & B & C); (split; [exact A|]; split; [destruct B as [B|B]; [rewrite <- B; cbn; auto|cbn; auto]|]); intros x X.
  - apply (lt_val _ _ FY FA) in E. pose proof (C y (or_introl eq_refl)). destruct X as [<-|[<-|X]]; [lra|lra|apply C; right; exact X].
  - assert (~ (val y < val a)%R) by (intros K; apply (lt_val _ _ FY FA) in K; congruence). pose proof (C a (or_introl eq_refl)). destruct X as [<-|[<-|X]]; [lra|lra|apply C; right; exact X].
Qed.
Lemma fold_largest l : forall a, fin a -> Forall fin l -> let m := fold_left (fun a x => if lt32 a x then x else a) l a in fin m /\ In m (a :: l) /\ forall x, In x (a :: l) -> (val x <= val m)%R.
Proof.
  induction l as [|y l IH]; intros a FA F; cbn [fold_left]; [split; [exact FA|]; split; [left; reflexivity|]; intros x [<-|[]]; lra|].
  inversion F as [|? ? FY F']; subst. specialize (IH (if lt32 a y then y else a)). destruct (lt32 a y) eqn:E; destruct (IH ltac:(assumption) F') as (A & B & C); (split; [exact A|]; split; [destruct B as [B|B]; [rewrite <- B; cbn; auto|cbn; auto]|]); intros x X.
  - apply (lt_val _ _ FA FY) in E. pose proof (C y (or_introl eq_refl)). destruct X as [<-|[<-|X]]; [lra|lra|apply C; right; exact X].
  - assert (~ (val a < val y)%R) by (intros K; apply (lt_val _ _ FA FY) in K; congruence). pose proof (C a (or_introl eq_refl)). destruct X as [<-|[<-|X]]; [lra|lra|apply C; right; exact X].
Qed.
Lemma extreme_val : fin f32_largest /\ (pow2 100 < val f32_largest)%R /\ fin f32_lowest /\ (val f32_lowest < - pow2 100)%R.
Proof.
  destruct (known f32_lowest true 16777215 104 eq_refl) as [FL VL]. destruct (known f32_largest false 16777215 104 eq_refl) as [FH VH]. rewrite VL, VH. cbn [cond_Zopp]. change (IZR (- Z.pos 16777215)) with (- IZR 16777215)%R.
  change 104 with (100 + 4). rewrite bpow_plus. change (pow2 4) with 16%R. pose proof (bpow_gt_0 radix2 100). split; [exact FH|]. split; [lra|]. split; [exact FL|lra].
Qed.
Definition box_of (lo hi : f32) (l : list f32) : Prop := In lo l /\ In hi l /\ forall x, In x l -> (val lo <= val x <= val hi)%R.
Lemma far_outside l x : Forall (within 54) l -> In x l -> (- pow2 100 < val x < pow2 100)%R.
Proof.
  intros F I. rewrite Forall_forall in F. destruct (F x I) as [_ W]. assert (pow2 54 < pow2 100)%R by (apply bpow_lt; lia). apply Rabs_le_inv in W. lra.
Qed.
Lemma box_flasher l : l <> [] -> Forall (within 54) l -> box_of (smallest l) (largest l) l.
Proof.
  intros N F. destruct l as [|y r]; [contradiction|]. assert (FF : Forall fin (y :: r)) by (eapply Forall_impl; [|exact F]; intros a [A _]; exact A). destruct extreme_val as (FH & VH & FL & VL). pose proof (far_outside _ y F (or_introl eq_refl)) as O.
  destruct (fold_smallest (y :: r) f32_largest FH FF) as (_ & IA & A). destruct (fold_largest (y :: r) f32_lowest FL FF) as (_ & IB & B). fold (smallest (y :: r)) in IA, A. fold (largest (y :: r)) in IB, B.
  pose proof (A y (or_intror (or_introl eq_refl))). pose proof (B y (or_intror (or_introl eq_refl))).
  split; [destruct IA as [IA|IA]; [exfalso; rewrite <- IA in *; lra|exact IA]|]. split; [destruct IB as [IB|IB]; [exfalso; rewrite <- IB in *; lra|exact IB]|]. intros x X. split; [apply A|apply B]; right; exact X.
Qed.
Lemma box_light l : l <> [] -> Forall (within 54) l -> box_of (fold_left min32 l f32_largest) (fold_left max32 l f32_lowest) l.
Proof.
  intros N F. destruct l as [|y r]; [contradiction|]. assert (FF : Forall fin (y :: r)) by (eapply Forall_impl; [|exact F]; intros a [A _]; exact A). destruct extreme_val as (FH & VH & FL & VL). pose proof (far_outside _ y F (or_introl eq_refl)) as O.
  destruct (fold_min (y :: r) f32_largest FH FF) as (_ & IA & A). destruct (fold_max (y :: r) f32_lowest FL FF) as (_ & IB & B). 
  pose proof (A y (or_intror (or_introl eq_refl))). pose proof (B y (or_intror (or_introl eq_refl))).
  split; [destruct IA as [IA|IA]; [exfalso; rewrite <- IA in *; lra|exact IA]|]. split; [destruct IB as [IB|IB]; [exfalso; rewrite <- IB in *; lra|exact IB]|]. intros x X. split; [apply A|apply B]; right; exact X.
Qed.
Lemma middle_close lo hi : within 54 lo -> within 54 hi -> within 54 (mul32 (add32 lo hi) f32_half) /\
  (Rabs (val (mul32 (add32 lo hi) f32_half) - (val lo + val hi) / 2) <= (Rabs (val lo) + Rabs (val hi)) / 16000000 + / 1000000000000000000000000000000)%R.
Proof.
  intros L H. destruct (add_val 54 _ _ ltac:(lia) L H) as [WA VA]. destruct half_val as [FH VH]. assert (WH : within (-1) f32_half) by (split; [exact FH|]; rewrite VH, Rabs_pos_eq by lra; change (pow2 (-1)) with (/ 2)%R; lra).
  destruct (mul_val 55 (-1) _ _ ltac:(lia) WA WH) as [WM VM]. split; [exact WM|]. rewrite VM, VH, VA. pose proof (Rabs_triang (val lo) (val hi)) as T. set (m := (Rabs (val lo) + Rabs (val hi))%R) in *. set (d := (val lo + val hi)%R) in *.
  pose proof (rnd_near d _ T) as R1. set (a := rnd d) in *. assert (A : (Rabs (a * / 2) <= (m * (1 + / 16777216) + tiny) * / 2)%R).
  { rewrite Rabs_mult, (Rabs_pos_eq (/ 2)) by lra. apply Rmult_le_compat_r; [lra|]. replace a with (d + (a - d))%R by ring. apply (Rle_trans _ _ _ (Rabs_triang _ _)). lra. }
  pose proof (rnd_near _ _ A) as R2. set (r := rnd (a * / 2)) in *. replace (r - d / 2)%R with ((r - a * / 2) + (a - d) * / 2)%R by field. apply (Rle_trans _ _ _ (Rabs_triang _ _)). rewrite (Rabs_mult (a - d)), (Rabs_pos_eq (/ 2)) by lra. assert (0 <= m)%R by (unfold m; apply Rplus_le_le_0_compat; apply Rabs_pos). lra.
Qed.
Lemma moved_close x c : within 54 x -> within 54 c -> within 55 (sub32 x c) /\ (Rabs (val (sub32 x c) - (val x - val c)) <= Rabs (val x - val c) / 16777216 + tiny)%R.
Proof. intros X C. destruct (sub_val 54 _ _ ltac:(lia) X C) as [W V]. split; [exact W|]. rewrite V. apply rnd_near. lra. Qed.

(** ** Turning *)
Lemma unit_product a b : within 0 a -> within 0 b -> within 0 (mul32 a b) /\ (Rabs (val (mul32 a b) - val a * val b) <= 6 / 100000000)%R.
Proof.
  intros A B. destruct (mul_val 0 0 _ _ ltac:(lia) A B) as [W V]. split; [exact W|]. rewrite V. assert (M : (Rabs (val a * val b) <= 1)%R) by (rewrite Rabs_mult; destruct A as [_ A], B as [_ B]; change (pow2 0) with 1%R in *; rewrite <- (Rmult_1_l 1); apply Rmult_le_compat; try apply Rabs_pos; assumption).
  pose proof (rnd_near _ _ M). lra.
Qed.
Lemma unit_product3 a b c : within 0 a -> within 0 b -> within 0 c -> within 0 (mul32 (mul32 a b) c) /\ (Rabs (val (mul32 (mul32 a b) c) - val a * val b * val c) <= 12 / 100000000)%R.
Proof.
  intros A B C. destruct (unit_product a b A B) as [W E]. destruct (unit_product _ _ W C) as [W' E']. split; [exact W'|]. destruct C as [_ C]. change (pow2 0) with 1%R in C. clear - E E' C.
  revert E E' C. generalize (val (mul32 (mul32 a b) c)) (val (mul32 a b)) (val c) (val a * val b)%R. intros p q r s E E' C. replace (p - s * r)%R with ((p - q * r) + (q - s) * r)%R by ring.
  apply (Rle_trans _ _ _ (Rabs_triang _ _)). rewrite (Rabs_mult (q - s) r). assert (Rabs (q - s) * Rabs r <= 6 / 100000000 * 1)%R by (apply Rmult_le_compat; try apply Rabs_pos; assumption). lra.
Qed.
Definition entry (x : f32) (r : R) : Prop := within 1 x /\ (Rabs (val x - r) <= 31 / 100000000)%R.
Lemma entry_of x r : within 0 x -> (Rabs (val x - r) <= 12 / 100000000)%R -> entry x r.
Proof. intros W E. split; [apply (within_mono 0); [lia|exact W]|lra]. Qed.
Lemma entry_add x y r s : within 0 x -> within 0 y -> (Rabs (val x - r) <= 12 / 100000000)%R -> (Rabs (val y - s) <= 6 / 100000000)%R -> entry (add32 x y) (r + s).
Proof.
  intros X Y R S. destruct (add_val 0 _ _ ltac:(lia) X Y) as [W V]. split; [exact W|]. rewrite V. destruct X as [_ X], Y as [_ Y]. change (pow2 0) with 1%R in *. assert (M : (Rabs (val x + val y) <= 2)%R) by (apply (Rle_trans _ _ _ (Rabs_triang _ _)); lra).
  pose proof (rnd_near _ _ M). replace (rnd (val x + val y) - (r + s))%R with ((rnd (val x + val y) - (val x + val y)) + ((val x - r) + (val y - s)))%R by ring. apply (Rle_trans _ _ _ (Rabs_triang _ _)). pose proof (Rabs_triang (val x - r) (val y - s)). lra.
Qed.
Lemma entry_sub x y r s : within 0 x -> within 0 y -> (Rabs (val x - r) <= 12 / 100000000)%R -> (Rabs (val y - s) <= 6 / 100000000)%R -> entry (sub32 x y) (r - s).
Proof.
  intros X Y R S. destruct (sub_val 0 _ _ ltac:(lia) X Y) as [W V]. split; [exact W|]. rewrite V. destruct X as [_ X], Y as [_ Y]. change (pow2 0) with 1%R in *. assert (M : (Rabs (val x - val y) <= 2)%R) by (apply (Rle_trans _ _ _ (Rabs_triang _ _)); rewrite Rabs_Ropp; lra).
  pose proof (rnd_near _ _ M). replace (rnd (val x - val y) - (r - s))%R with ((rnd (val x - val y) - (val x - val y)) + ((val x - r) + - (val y - s)))%R by ring. apply (Rle_trans _ _ _ (Rabs_triang _ _)). pose proof (Rabs_triang (val x - r) (- (val y - s))) as T. rewrite (Rabs_Ropp (val y - s)) in T. lra.
Qed.
Lemma entry_small x r : entry x r -> (Rabs r <= 201 / 100)%R.
Proof. intros [[_ W] E]. change (pow2 1) with 2%R in W. replace r with (val x - (val x - r))%R by ring. apply (Rle_trans _ _ _ (Rabs_triang _ _)). rewrite Rabs_Ropp. lra. Qed.
Lemma part_close a A x : entry a A -> within 56 x -> within 57 (mul32 a x) /\ (Rabs (val (mul32 a x) - A * val x) <= 44 / 100000000 * Rabs (val x) + tiny)%R.
Proof.
  intros [WA EA] X. destruct (mul_val 1 56 _ _ ltac:(lia) WA X) as [W V]. split; [exact W|]. rewrite V. destruct WA as [_ WA]. change (pow2 1) with 2%R in WA.
  assert (M : (Rabs (val a * val x) <= 2 * Rabs (val x))%R) by (rewrite Rabs_mult; apply Rmult_le_compat_r; [apply Rabs_pos|exact WA]). pose proof (rnd_near _ _ M).
  assert (D : (Rabs ((val a - A) * val x) <= 31 / 100000000 * Rabs (val x))%R) by (rewrite Rabs_mult; apply Rmult_le_compat_r; [apply Rabs_pos|exact EA]). pose proof (Rabs_pos (val x)).
  replace (rnd (val a * val x) - A * val x)%R with ((rnd (val a * val x) - val a * val x) + (val a - A) * val x)%R by ring. apply (Rle_trans _ _ _ (Rabs_triang _ _)). lra.
Qed.
Lemma row_close a b c A B C x y z : entry a A -> entry b B -> entry c C -> within 56 x -> within 56 y -> within 56 z ->
  within 59 (turned_row a b c x y z) /\ (Rabs (val (turned_row a b c x y z) - (A * val x + B * val y + C * val z)) <= 7 / 10000000 * (Rabs (val x) + Rabs (val y) + Rabs (val z)) + 6 * tiny)%R.
Proof.
  intros EA EB EC X Y Z. destruct (part_close _ _ _ EA X) as [WX PX]. destruct (part_close _ _ _ EB Y) as [WY PY]. destruct (part_close _ _ _ EC Z) as [WZ PZ]. unfold turned_row.
  destruct (add_val 57 _ _ ltac:(lia) WX WY) as [W1 V1]. destruct (add_val 58 _ _ ltac:(lia) W1 (within_mono 57 58 _ ltac:(lia) WZ)) as [W2 V2]. split; [exact W2|].
  pose proof (entry_small _ _ EA) as SA. pose proof (entry_small _ _ EB) as SB. pose proof (entry_small _ _ EC) as SC.
  assert (NX := Rabs_pos (val x)). assert (NY := Rabs_pos (val y)). assert (NZ := Rabs_pos (val z)).
  assert (MX : (Rabs (A * val x) <= 201 / 100 * Rabs (val x))%R) by (rewrite Rabs_mult; apply Rmult_le_compat_r; assumption).
  assert (MY : (Rabs (B * val y) <= 201 / 100 * Rabs (val y))%R) by (rewrite Rabs_mult; apply Rmult_le_compat_r; assumption).
  assert (MZ : (Rabs (C * val z) <= 201 / 100 * Rabs (val z))%R) by (rewrite Rabs_mult; apply Rmult_le_compat_r; assumption).
  revert V1 V2 PX PY PZ MX MY MZ NX NY NZ. generalize (val (mul32 a x)) (val (mul32 b y)) (val (mul32 c z)) (val (add32 (add32 (mul32 a x) (mul32 b y)) (mul32 c z))) (val (add32 (mul32 a x) (mul32 b y))). intros p q r t u V1 V2.
  generalize (A * val x)%R (B * val y)%R (C * val z)%R (Rabs (val x)) (Rabs (val y)) (Rabs (val z)). clear - V1 V2. intros x y z X Y Z PX PY PZ MX MY MZ NX NY NZ.
  assert (M1 : (Rabs (p + q) <= 202 / 100 * (X + Y) + 2 * tiny)%R).
  { replace (p + q)%R with ((p - x) + (q - y) + (x + y))%R by ring. apply (Rle_trans _ _ _ (Rabs_triang _ _)). pose proof (Rabs_triang (p - x) (q - y)). pose proof (Rabs_triang x y). lra. }
  pose proof (rnd_near _ _ M1) as R1. rewrite <- V1 in R1.
  assert (M2 : (Rabs (u + r) <= 203 / 100 * (X + Y + Z) + 5 * tiny)%R).
  { replace (u + r)%R with ((u - (p + q)) + (p + q) + ((r - z) + z))%R by ring. apply (Rle_trans _ _ _ (Rabs_triang _ _)). pose proof (Rabs_triang (u - (p + q)) (p + q)). pose proof (Rabs_triang (r - z) z). lra. }
  pose proof (rnd_near _ _ M2) as R2. rewrite <- V2 in R2.
  replace (t - (x + y + z))%R with ((t - (u + r)) + (u - (p + q)) + ((p - x) + (q - y) + (r - z)))%R by ring. apply (Rle_trans _ _ _ (Rabs_triang _ _)). pose proof (Rabs_triang (t - (u + r)) (u - (p + q))). pose proof (Rabs_triang ((p - x) + (q - y)) (r - z)). pose proof (Rabs_triang (p - x) (q - y)). lra.
Qed.
(** A coordinate that is X up to one rounding *)
Definition moved (x : f32) (X : R) : Prop := within 56 x /\ (Rabs (val x - X) <= Rabs X / 16777216 + tiny)%R.
Lemma moved_self x : within 56 x -> moved x (val x).
Proof. intros W. split; [exact W|]. rewrite Rminus_diag_eq, Rabs_R0 by reflexivity. pose proof (Rabs_pos (val x)). lra. Qed.
Lemma moved_by x c : within 54 x -> within 54 c -> moved (sub32 x c) (val x - val c).
Proof. intros X C. destruct (moved_close x c X C) as [W E]. split; [apply (within_mono 55); [lia|exact W]|exact E]. Qed.
Notation turn_error X Y Z := ((Rabs X + Rabs Y + Rabs Z) / 1000000 + / 100000000000000000000000000000)%R.
Lemma row_moved a b c A B C x y z X Y Z : entry a A -> entry b B -> entry c C -> moved x X -> moved y Y -> moved z Z ->
  fin (turned_row a b c x y z) /\ (Rabs (val (turned_row a b c x y z) - (A * X + B * Y + C * Z)) <= turn_error X Y Z)%R.
Proof.
  intros EA EB EC [WX PX] [WY PY] [WZ PZ]. destruct (row_close _ _ _ _ _ _ _ _ _ EA EB EC WX WY WZ) as [[F _] R]. split; [exact F|].
  pose proof (entry_small _ _ EA) as SA. pose proof (entry_small _ _ EB) as SB. pose proof (entry_small _ _ EC) as SC.
  revert R PX PY PZ SA SB SC. generalize (val (turned_row a b c x y z)) (val x) (val y) (val z). clear. intros t x y z R PX PY PZ SA SB SC.
  assert (S : forall U u, (Rabs (u - U) <= Rabs U / 16777216 + tiny -> Rabs u <= Rabs U * (1 + / 16777216) + tiny)%R).
  { intros U u H. replace u with ((u - U) + U)%R by ring. apply (Rle_trans _ _ _ (Rabs_triang _ _)). lra. }
  assert (T : forall K U u, (Rabs K <= 201 / 100 -> Rabs (u - U) <= Rabs U / 16777216 + tiny -> Rabs (K * (u - U)) <= 201 / 100 * (Rabs U / 16777216 + tiny))%R).
  { intros K U u H1 H2. rewrite Rabs_mult. apply Rmult_le_compat; try apply Rabs_pos; assumption. }
  pose proof (S _ _ PX) as S1. pose proof (S _ _ PY) as S2. pose proof (S _ _ PZ) as S3. pose proof (T _ _ _ SA PX) as T1. pose proof (T _ _ _ SB PY) as T2. pose proof (T _ _ _ SC PZ) as T3.
  pose proof (Rabs_pos X). pose proof (Rabs_pos Y). pose proof (Rabs_pos Z).
  replace (t - (A * X + B * Y + C * Z))%R with ((t - (A * x + B * y + C * z)) + (A * (x - X) + B * (y - Y) + C * (z - Z)))%R by ring. apply (Rle_trans _ _ _ (Rabs_triang _ _)).
  pose proof (Rabs_triang (A * (x - X) + B * (y - Y)) (C * (z - Z))). pose proof (Rabs_triang (A * (x - X)) (B * (y - Y))). lra.
Qed.
Section Turned.
Variables cx sx cy sy cz sz : f32.
Hypothesis (CX : within 0 cx) (SX : within 0 sx) (CY : within 0 cy) (SY : within 0 sy) (CZ : within 0 cz) (SZ : within 0 sz).
Lemma turned_close x y z X Y Z : moved x X -> moved y Y -> moved z Z ->
  let p := (turned_row (mul32 cz cy) (sub32 (mul32 (mul32 cz sy) sx) (mul32 sz cx)) (add32 (mul32 (mul32 cz sy) cx) (mul32 sz sx)) x y z,
            turned_row (mul32 sz cy) (add32 (mul32 (mul32 sz sy) sx) (mul32 cz cx)) (sub32 (mul32 (mul32 sz sy) cx) (mul32 cz sx)) x y z,
            turned_row (neg_f32 sy) (mul32 cy sx) (mul32 cy cx) x y z) in
  (let '(a, b, c) := p in fin a /\ fin b /\ fin c) /\
  close_to (turn_error X Y Z) (reals p) (about_z (val cz) (val sz) (about_y (val cy) (val sy) (about_x (val cx) (val sx) (X, Y, Z)))).
Proof.
  intros MX MY MZ. cbv zeta beta iota delta [reals close_to about_x about_y about_z].
  assert (P2 : forall a b, within 0 a -> within 0 b -> entry (mul32 a b) (val a * val b)) by (intros a b A B; destruct (unit_product a b A B) as [W E]; apply entry_of; [exact W|lra]).
  destruct (unit_product _ _ CZ SY) as [W1 _]. destruct (unit_product _ _ SZ SY) as [W2 _].
  destruct (unit_product3 _ _ _ CZ SY SX) as [U1 V1]. destruct (unit_product3 _ _ _ CZ SY CX) as [U2 V2]. destruct (unit_product3 _ _ _ SZ SY SX) as [U3 V3]. destruct (unit_product3 _ _ _ SZ SY CX) as [U4 V4].
  destruct (unit_product _ _ SZ CX) as [Q1 R1]. destruct (unit_product _ _ SZ SX) as [Q2 R2]. destruct (unit_product _ _ CZ CX) as [Q3 R3]. destruct (unit_product _ _ CZ SX) as [Q4 R4].
  assert (N : entry (neg_f32 sy) (- val sy)).
  { destruct SY as [FS LS]. destruct (neg_val sy FS) as [FN VN]. apply entry_of; [split; [exact FN|rewrite VN, Rabs_Ropp; exact LS]|]. rewrite VN, Rminus_diag_eq, Rabs_R0 by reflexivity. lra. }
  destruct (row_moved _ _ _ _ _ _ x y z X Y Z (P2 _ _ CZ CY) (entry_sub _ _ _ _ U1 Q1 V1 R1) (entry_add _ _ _ _ U2 Q2 V2 R2) MX MY MZ) as [F1 E1].
  destruct (row_moved _ _ _ _ _ _ x y z X Y Z (P2 _ _ SZ CY) (entry_add _ _ _ _ U3 Q3 V3 R3) (entry_sub _ _ _ _ U4 Q4 V4 R4) MX MY MZ) as [F2 E2].
  destruct (row_moved _ _ _ _ _ _ x y z X Y Z N (P2 _ _ CY SX) (P2 _ _ CY CX) MX MY MZ) as [F3 E3].
  split; [split; [exact F1|split; [exact F2|exact F3]]|]. rewrite !real_val by assumption. revert E1 E2 E3.
  match goal with |- (Rabs (?a - _) <= _)%R -> (Rabs (?b - _) <= _)%R -> (Rabs (?c - _) <= _)%R -> _ => generalize a b c end. clear. intros a b c E1 E2 E3.
  split; [|split]; [refine (Rle_trans _ _ _ (Req_le _ _ _) E1)|refine (Rle_trans _ _ _ (Req_le _ _ _) E2)|refine (Rle_trans _ _ _ (Req_le _ _ _) E3)]; f_equal; ring.
Qed.
End Turned.

(** ** Distances from the centre of a light *)
Lemma squares_close s t d x y q : (pow2 (-61) <= d)%R -> (s * s + t * t <= d * d)%R -> x = rnd s -> y = rnd t -> q = rnd (rnd (x * x) + rnd (y * y)) -> (Rabs (q - (s * s + t * t)) <= 5 / 10000000 * (d * d))%R.
Proof.
  intros D ST EX EY ->. pose proof (bpow_gt_0 radix2 (-61)) as P.
  assert (SQ : forall u v : R, (u * u + v * v <= d * d)%R -> (Rabs u <= d)%R).
  { intros u v H. rewrite <- (Rabs_pos_eq d) by lra. apply Rsqr_le_abs_0. unfold Rsqr. pose proof (Rle_0_sqr v) as T. unfold Rsqr in T. lra. }
  pose proof (square_error x s d D (SQ s t ST) EX) as SX. pose proof (square_error y t d D (SQ t s ltac:(lra)) EY) as SY. clear EX EY SQ.
  assert (A0 : (0 <= s * s)%R) by apply Rle_0_sqr. assert (B0 : (0 <= t * t)%R) by apply Rle_0_sqr. assert (HD : (0 < d * d)%R) by (apply Rmult_lt_0_compat; lra).
  assert (HS : (pow2 (-150) <= d * d / 100000000)%R).
  { apply (Rle_trans _ (pow2 (-61) * pow2 (-61) / 100000000)); [|unfold Rdiv; apply Rmult_le_compat_r; [lra|]; apply Rmult_le_compat; lra]. rewrite <- bpow_plus. change (-150)%Z with (-61 + -61 + -28)%Z. rewrite (bpow_plus _ (-61 + -61)%Z (-28)%Z). unfold Rdiv. apply Rmult_le_compat_l; [apply bpow_ge_0|].
    change (-28)%Z with (- (28))%Z. rewrite bpow_opp, <- (IZR_Zpower radix2 28) by lia. apply Rinv_le; [lra|apply IZR_le; vm_compute; discriminate]. }
  assert (R : forall u m, (Rabs u <= m -> Rabs (rnd u - u) <= m / 16777216 + d * d / 100000000)%R).
  { intros u m M. destruct (rnd_split u) as (e & h & E & H & ->). replace (u * (1 + e) + h - u)%R with (u * e + h)%R by ring. apply (Rle_trans _ _ _ (Rabs_triang _ _)). rewrite Rabs_mult. assert (Rabs u * Rabs e <= m * / IZR 16777216)%R by (apply Rmult_le_compat; try apply Rabs_pos; assumption). unfold Rdiv in *. lra. }
  revert SX SY ST HS HD A0 B0 R. generalize (x * x)%R (y * y)%R (s * s)%R (t * t)%R (d * d)%R. clear. intros x y s t d SX SY ST HS HD A0 B0 R.
  assert (MX : (Rabs x <= 101 / 100 * d)%R) by (apply Rabs_le_inv in SX; apply Rabs_le; lra). assert (MY : (Rabs y <= 101 / 100 * d)%R) by (apply Rabs_le_inv in SY; apply Rabs_le; lra).
  pose proof (R x _ MX) as RX. pose proof (R y _ MY) as RY. set (a := rnd x) in *. set (b := rnd y) in *.
  assert (MS : (Rabs (a + b) <= 101 / 100 * d)%R) by (apply Rabs_le_inv in SX, SY, RX, RY; apply Rabs_le; lra). pose proof (R _ _ MS) as RS. set (c := rnd (a + b)) in *.
  apply Rabs_le_inv in SX, SY, RX, RY, RS. apply Rabs_le. lra.
Qed.
Lemma distance_at c p : within 54 (v2_x c) -> within 54 (v2_y c) -> bounded_vertex p ->
  fin (squared_distance c p) /\ (0 <= val (squared_distance c p))%R /\ within 111 (squared_distance c p) /\
  forall d, (pow2 (-61) <= d)%R -> (distance (v2_x c) (v2_y c) p <= d)%R -> (Rabs (val (squared_distance c p) - distance (v2_x c) (v2_y c) p * distance (v2_x c) (v2_y c) p) <= 5 / 10000000 * (d * d))%R.
Proof.
  intros CX CY [X Y]. unfold squared_distance. cbv zeta. destruct (sub_val 54 _ _ ltac:(lia) X CX) as [WX VX]. destruct (sub_val 54 _ _ ltac:(lia) Y CY) as [WY VY].
  destruct (mul_val 55 55 _ _ ltac:(lia) WX WX) as [MX MVX]. destruct (mul_val 55 55 _ _ ltac:(lia) WY WY) as [MY MVY]. destruct (add_val 110 _ _ ltac:(lia) MX MY) as [WS VS].
  split; [apply WS|]. split; [rewrite VS, MVX, MVY; apply round_pos, Rplus_le_le_0_compat; apply round_pos, Rle_0_sqr|]. split; [exact WS|].
  unfold distance. rewrite (real_val _ (proj1 X)), (real_val _ (proj1 Y)), (real_val _ (proj1 CX)), (real_val _ (proj1 CY)). rewrite MVX, MVY in VS. revert VX VY VS.
  generalize (val (sub32 (rv_x p) (v2_x c))) (val (sub32 (rv_y p) (v2_y c))) (val (rv_x p) - val (v2_x c))%R (val (rv_y p) - val (v2_y c))%R. intros x y s t VX VY VS d D L.
  assert (ST : (0 <= s * s + t * t)%R) by (apply Rplus_le_le_0_compat; apply Rle_0_sqr). rewrite sqrt_sqrt by exact ST.
  apply (squares_close s t d x y _ D); [|exact VX|exact VY|exact VS]. rewrite <- (sqrt_sqrt _ ST). apply Rmult_le_compat; try apply sqrt_pos; exact L.
Qed.
Lemma max_is_fold c points : forall a, fold_left (fun acc p => max32 acc (squared_distance c p)) points a = fold_left max32 (map (squared_distance c) points) a.
Proof. induction points as [|p r IH]; intros a; [reflexivity|]. cbn [map fold_left]. apply IH. Qed.
Lemma farthest_close c points d : within 54 (v2_x c) -> within 54 (v2_y c) -> Forall bounded_vertex points -> farthest (v2_x c) (v2_y c) points d -> (pow2 (-60) <= d)%R ->
  within 111 (max_distance c points) /\ (Rabs (val (max_distance c points) - d * d) <= 5 / 10000000 * (d * d))%R.
Proof.
  intros CX CY F [(p & IP & DP) U] D. pose proof (bpow_gt_0 radix2 (-61)) as P. assert (D1 : (pow2 (-61) <= d)%R) by (apply (Rle_trans _ (pow2 (-60))); [apply bpow_le; lia|exact D]). rewrite Forall_forall in F.
  destruct zero_val as [FZ VZ]. assert (FQ : Forall fin (map (squared_distance c) points)) by (apply Forall_forall; intros q Q; apply in_map_iff in Q; destruct Q as (r & <- & R); apply (distance_at c r CX CY (F r R))).
  unfold max_distance. rewrite max_is_fold. destruct (fold_max _ f32_zero FZ FQ) as (FM & IM & LM). revert FM IM LM. generalize (fold_left max32 (map (squared_distance c) points) f32_zero). intros m FM IM LM.
  destruct (distance_at c p CX CY (F p IP)) as (_ & Q0 & _ & E). pose proof (E d D1 (U p IP)) as EP. rewrite DP in EP. pose proof (LM _ (or_intror (in_map (squared_distance c) _ _ IP))) as L1.
  assert (HD : (0 < d * d)%R) by (apply Rmult_lt_0_compat; lra). apply Rabs_le_inv in EP.
  destruct IM as [IM|IM]; [exfalso; rewrite <- IM, VZ in L1; lra|]. apply in_map_iff in IM. destruct IM as (r & <- & IR). destruct (distance_at c r CX CY (F r IR)) as (_ & _ & WR & E'). pose proof (E' d D1 (U r IR)) as ER. split; [exact WR|].
  assert (distance (v2_x c) (v2_y c) r * distance (v2_x c) (v2_y c) r <= d * d)%R by (apply Rmult_le_compat; try apply sqrt_pos; apply U, IR). apply Rabs_le_inv in ER. apply Rabs_le. lra.
Qed.
Lemma light_close c points d x k : within 54 (v2_x c) -> within 54 (v2_y c) -> Forall bounded_vertex points -> farthest (v2_x c) (v2_y c) points d -> (pow2 (-60) <= d)%R ->
  within 54 x -> within 54 k -> (Rabs (val x - val k) <= d)%R ->
  let t := add32 f32_half (mul32 (sub32 x k) (inverse_distance (max_distance c points))) in
  fin t /\ (Rabs (val t - (/ 2 + (val x - val k) / (2 * d))) <= / 1000000)%R.
Proof.
  intros CX CY F FA D X K XK t. destruct (farthest_close c points d CX CY F FA D) as [WM EM]. unfold t. clear t. revert WM EM. generalize (max_distance c points). intros m WM EM. clear CX CY F FA c points.
  pose proof (bpow_gt_0 radix2 (-61)) as P. pose proof (pow_succ (-61)) as P1. change (-61 + 1)%Z with (-60)%Z in P1. assert (HD : (0 < d * d)%R) by (apply Rmult_lt_0_compat; lra).
  assert (M0 : (0 < val m)%R) by (apply Rabs_le_inv in EM; lra). unfold inverse_distance. destruct zero_val as [FZ VZ]. replace (lt32 f32_zero m) with true by (symmetry; apply lt_val; [exact FZ|apply WM|rewrite VZ; exact M0]).
  destruct (sqrt_val 56 m ltac:(lia) (within_mono 111 112 _ ltac:(lia) WM) ltac:(lra)) as [[FL BL] _]. pose proof (sqrt_rnd m) as VL. revert FL BL VL. generalize (sqrt32 m). intros len FL BL VL.
  pose proof (sqrt_close (val m) d (5 / 10000000) ltac:(lra) ltac:(lra) EM) as SC. set (l0 := sqrt (val m)) in *. assert (L0 : (Rabs l0 <= 101 / 100 * d)%R) by (apply Rabs_le_inv in SC; apply Rabs_le; lra).
  pose proof (rnd_close l0 _ d L0 ltac:(lra)) as RL. rewrite <- VL in RL. assert (EL : (Rabs (val len - d) <= 57 / 100000000 * d)%R) by (apply Rabs_le_inv in SC, RL; apply Rabs_le; lra). clear SC L0 RL VL M0 EM. clear l0.
  apply Rabs_le_inv in EL. assert (PL : (pow2 (-61) <= Rabs (val len))%R) by (rewrite Rabs_pos_eq by lra; lra). destruct half_val as [FH VH]. assert (WH : within (-1) f32_half) by (split; [exact FH|]; rewrite VH, Rabs_pos_eq by lra; change (pow2 (-1)) with (/ 2)%R; lra).
  destruct (div_val (-1) (-61) f32_half len ltac:(lia) WH PL) as [WI VI]. destruct (sub_val 54 _ _ ltac:(lia) X K) as [WD VD]. destruct (mul_val 55 60 _ _ ltac:(lia) WD WI) as [WP VP].
  destruct (add_val 115 f32_half _ ltac:(lia) (within_mono (-1) 115 _ ltac:(lia) WH) WP) as [[FT _] VT]. split; [exact FT|]. rewrite VT, VP, VI, VD, VH. clear VT VP VI VD FT WP WI WD WH FH PL. set (s := (val x - val k)%R) in *. set (n := val len) in *. clearbody s n. clear - EL D P P1 XK HD BL.
  assert (DP : (0 < d)%R) by lra. assert (NP : (0 < n)%R) by lra.
  pose proof (rnd_close s d d XK ltac:(lra)) as RS. set (u := rnd s) in *. clearbody u.
  destruct (rnd_split (/ 2 / n)) as (e & h & E & H & Q). set (i := rnd (/ 2 / n)) in *. clearbody i.
  assert (EI : (i * n = / 2 * (1 + e) + h * n)%R) by (rewrite Q; field; lra).
  assert (HN : (Rabs (h * n) <= / 1000000000000)%R).
  { rewrite Rabs_mult. apply (Rle_trans _ (pow2 (-150) * pow2 56)); [apply Rmult_le_compat; try apply Rabs_pos; assumption|]. rewrite <- bpow_plus. change (-150 + 56)%Z with (- (94))%Z. rewrite bpow_opp, <- (IZR_Zpower radix2 94) by lia. apply Rinv_le; [lra|apply IZR_le; vm_compute; discriminate]. }
  set (o := (i * n)%R) in *. assert (OB : (Rabs (o - / 2) <= 31 / 1000000000)%R) by (rewrite EI; apply Rabs_le_inv in HN, E; apply Rabs_le; lra).
  set (g := (s / d)%R). set (a := (u / d)%R). set (b := (d / n)%R).
  assert (DI : (0 < / d)%R) by (apply Rinv_0_lt_compat, DP). assert (DD : (d * / d = 1)%R) by (apply Rinv_r; lra).
  assert (GB : (Rabs g <= 1)%R) by (unfold g, Rdiv; rewrite Rabs_mult, (Rabs_pos_eq (/ d)) by lra; rewrite <- DD; apply Rmult_le_compat_r; lra).
  assert (AB : (Rabs (a - g) <= 6 / 100000000)%R).
  { unfold a, g, Rdiv. rewrite <- Rmult_minus_distr_r, Rabs_mult, (Rabs_pos_eq (/ d)) by lra. apply (Rle_trans _ ((d / 16777216 + d / 1000000000000) * / d)); [apply Rmult_le_compat_r; lra|]. unfold Rdiv. replace ((d * / 16777216 + d * / 1000000000000) * / d)%R with (/ 16777216 + / 1000000000000)%R by (field; lra). lra. }
  assert (BB : (Rabs (b - 1) <= 58 / 100000000)%R).
  { replace (b - 1)%R with ((d - n) * / n)%R by (unfold b; field; lra). rewrite Rabs_mult, (Rabs_pos_eq (/ n)) by (left; apply Rinv_0_lt_compat, NP). apply (Rmult_le_reg_r n); [exact NP|]. rewrite Rmult_assoc, Rinv_l, Rmult_1_r by lra. apply Rabs_le. lra. }
  assert (UI : (u * i = a * b * o)%R) by (unfold a, b, o; field; lra). replace (s / (2 * d))%R with (g / 2)%R by (unfold g; field; lra).
  assert (UB : (Rabs (a * b * o - g / 2) <= 40 / 100000000)%R).
  { replace (a * b * o - g / 2)%R with ((a - g) * (b * o) + g * ((b - 1) * o + (o - / 2)))%R by field. 
    assert (O1 : (Rabs o <= 51 / 100)%R) by (apply Rabs_le_inv in OB; apply Rabs_le; lra). assert (B1 : (Rabs b <= 101 / 100)%R) by (apply Rabs_le_inv in BB; apply Rabs_le; lra).
    assert (T1 : (Rabs ((a - g) * (b * o)) <= 6 / 100000000 * (101 / 100 * (51 / 100)))%R) by (rewrite !Rabs_mult; apply Rmult_le_compat; try apply Rabs_pos; [|exact AB|apply Rmult_le_compat; try apply Rabs_pos; assumption]; rewrite <- Rabs_mult; apply Rabs_pos).
    assert (T2 : (Rabs ((b - 1) * o) <= 58 / 100000000 * (51 / 100))%R) by (rewrite Rabs_mult; apply Rmult_le_compat; try apply Rabs_pos; assumption).
    assert (T3 : (Rabs (g * ((b - 1) * o + (o - / 2))) <= 1 * (58 / 100000000 * (51 / 100) + 31 / 1000000000))%R) by (rewrite Rabs_mult; apply Rmult_le_compat; try apply Rabs_pos; [exact GB|]; apply (Rle_trans _ _ _ (Rabs_triang _ _)); lra).
    apply (Rle_trans _ _ _ (Rabs_triang _ _)). lra. }
  rewrite UI. set (w := (a * b * o)%R) in *. clearbody w g. clear - UB GB. apply Rabs_le_inv in UB, GB. assert (W1 : (Rabs w <= 1)%R) by (apply Rabs_le; lra). pose proof (rnd_near _ _ W1) as R1. set (z := rnd w) in *. clearbody z. apply Rabs_le_inv in R1.
  assert (W2 : (Rabs (/ 2 + z) <= 2)%R) by (apply Rabs_le; lra). pose proof (rnd_near _ _ W2) as R2. apply Rabs_le_inv in R2. apply Rabs_le. lra.
Qed.

(** ** The corners of a decal *)
Lemma pair_moved a b A B x y X Y : entry a A -> entry b B -> moved x X -> moved y Y ->
  (fin (add32 (mul32 a x) (mul32 b y)) /\ (Rabs (val (add32 (mul32 a x) (mul32 b y)) - (A * X + B * Y)) <= turn_error X Y 0)%R) /\
  (fin (sub32 (mul32 a x) (mul32 b y)) /\ (Rabs (val (sub32 (mul32 a x) (mul32 b y)) - (A * X - B * Y)) <= turn_error X Y 0)%R).
Proof.
  intros EA EB [WX PX] [WY PY]. destruct (part_close _ _ _ EA WX) as [WP EX]. destruct (part_close _ _ _ EB WY) as [WQ EY]. destruct (add_val 57 _ _ ltac:(lia) WP WQ) as [[FA _] VA]. destruct (sub_val 57 _ _ ltac:(lia) WP WQ) as [[FS _] VS].
  pose proof (entry_small _ _ EA) as SA. pose proof (entry_small _ _ EB) as SB. rewrite Rabs_R0. 
  assert (G : forall x X A p, (Rabs (x - X) <= Rabs X / 16777216 + tiny -> Rabs (p - A * x) <= 44 / 100000000 * Rabs x + tiny -> Rabs A <= 201 / 100 -> Rabs (p - A * X) <= 57 / 100000000 * Rabs X + 4 * tiny /\ Rabs (A * X) <= 201 / 100 * Rabs X)%R).
  { clear. intros x X A p H1 H2 H3. pose proof (Rabs_pos X). assert (M : (Rabs x <= Rabs X * (1 + / 16777216) + tiny)%R) by (replace x with ((x - X) + X)%R by ring; apply (Rle_trans _ _ _ (Rabs_triang _ _)); lra).
    assert (T : (Rabs (A * (x - X)) <= 201 / 100 * (Rabs X / 16777216 + tiny))%R) by (rewrite Rabs_mult; apply Rmult_le_compat; try apply Rabs_pos; assumption).
    split; [|rewrite Rabs_mult; apply Rmult_le_compat_r; assumption]. replace (p - A * X)%R with ((p - A * x) + A * (x - X))%R by ring. apply (Rle_trans _ _ _ (Rabs_triang _ _)). lra. }
  destruct (G _ _ _ _ PX EX SA) as [G1 G2]. destruct (G _ _ _ _ PY EY SB) as [G3 G4]. revert VA VS G1 G2 G3 G4.
  generalize (val (mul32 a x)) (val (mul32 b y)) (A * X)%R (B * Y)%R. intros p q P Q VA VS G1 G2 G3 G4. rewrite VA, VS. split; (split; [assumption|]); clear - G1 G2 G3 G4; pose proof (Rabs_pos X); pose proof (Rabs_pos Y).
  - assert (M : (Rabs (p + q) <= 202 / 100 * (Rabs X + Rabs Y) + 8 * tiny)%R) by (replace (p + q)%R with ((p - P) + (q - Q) + (P + Q))%R by ring; apply (Rle_trans _ _ _ (Rabs_triang _ _)); pose proof (Rabs_triang (p - P) (q - Q)); pose proof (Rabs_triang P Q); lra).
    pose proof (rnd_near _ _ M). replace (rnd (p + q) - (P + Q))%R with ((rnd (p + q) - (p + q)) + ((p - P) + (q - Q)))%R by ring. apply (Rle_trans _ _ _ (Rabs_triang _ _)). pose proof (Rabs_triang (p - P) (q - Q)). lra.
  - assert (M : (Rabs (p - q) <= 202 / 100 * (Rabs X + Rabs Y) + 8 * tiny)%R).
    { replace (p - q)%R with ((p - P) - (q - Q) + (P - Q))%R by ring. apply (Rle_trans _ _ _ (Rabs_triang _ _)). pose proof (Rabs_triang (p - P) (- (q - Q))) as T1. pose proof (Rabs_triang P (- Q)) as T2. rewrite Rabs_Ropp in T1, T2. unfold Rminus in *. lra. }
    pose proof (rnd_near _ _ M). replace (rnd (p - q) - (P - Q))%R with ((rnd (p - q) - (p - q)) + ((p - P) + - (q - Q)))%R by ring. apply (Rle_trans _ _ _ (Rabs_triang _ _)). pose proof (Rabs_triang (p - P) (- (q - Q))) as T1. rewrite Rabs_Ropp in T1. lra.
Qed.
Lemma half_moved x : within 54 x -> moved (mul32 x f32_half) (val x / 2) /\ moved (add32 (mul32 x f32_half) f32_zero) (val x / 2).
Proof.
  intros X. destruct half_val as [FH VH]. assert (WH : within (-1) f32_half) by (split; [exact FH|]; rewrite VH, Rabs_pos_eq by lra; change (pow2 (-1)) with (/ 2)%R; lra).
  destruct (mul_val 54 (-1) _ _ ltac:(lia) X WH) as [W V]. rewrite VH in V. assert (M : moved (mul32 x f32_half) (val x / 2)) by (split; [apply (within_mono 53); [lia|exact W]|rewrite V; apply rnd_near; unfold Rdiv; lra]). split; [exact M|].
  destruct (add_val 53 _ f32_zero ltac:(lia) W (zero_within 53)) as [W' V']. rewrite (proj2 zero_val), Rplus_0_r, round_generic in V'; auto with typeclass_instances; [|apply val_format]. destruct M as [_ M]. split; [apply (within_mono 54); [lia|exact W']|rewrite V'; exact M].
Qed.
Lemma self_entry x : within 0 x -> entry x (val x) /\ entry (neg_f32 x) (- val x).
Proof.
  intros W. split; [apply entry_of; [exact W|]; rewrite Rminus_diag_eq, Rabs_R0 by reflexivity; lra|]. destruct W as [F L]. destruct (neg_val x F) as [FN VN]. apply entry_of; [split; [exact FN|rewrite VN, Rabs_Ropp; exact L]|]. rewrite VN, Rminus_diag_eq, Rabs_R0 by reflexivity. lra.
Qed.

(** ** A length as a share of another *)
Lemma share_close a X W w : moved a X -> fin W -> (pow2 (-19) <= Rabs w <= pow2 55)%R -> (Rabs (val W - w) <= Rabs w / 16777216 + tiny)%R ->
  fin (mul32 a (div32 f32_one W)) /\ (Rabs (val (mul32 a (div32 f32_one W)) - X / w) <= Rabs (X / w) / 1000000 + / 100000000000000000000)%R.
Proof.
  intros [WA EA] FW [W1 W2] EW. assert (P19 : pow2 (-19) = (/ 524288)%R) by reflexivity. rewrite P19 in W1.
  assert (WB : (999 / 1000 * Rabs w <= Rabs (val W) <= 1001 / 1000 * Rabs w)%R).
  { split; [|replace (val W) with ((val W - w) + w)%R by ring; apply (Rle_trans _ _ _ (Rabs_triang _ _)); lra]. pose proof (Rabs_triang (- (val W - w)) (val W)) as T. replace (- (val W - w) + val W)%R with w in T by ring. rewrite Rabs_Ropp in T. lra. }
  destruct one_val as [FO VO]. assert (WO : within 0 f32_one) by (split; [exact FO|]; rewrite VO, Rabs_pos_eq by lra; change (pow2 0) with 1%R; lra).
  destruct (div_val 0 (-20) f32_one W ltac:(lia) WO) as [WI VI]; [change (pow2 (-20)) with (/ 1048576)%R; lra|]. destruct (mul_val 56 20 _ _ ltac:(lia) WA WI) as [[FM _] VM]. split; [exact FM|]. rewrite VM. rewrite VO in VI. revert VI. generalize (val (div32 f32_one W)). intros i VI. clear VM FM WI.
  assert (NW : val W <> 0%R) by (intros E; rewrite E, Rabs_R0 in WB; lra). assert (Nw : w <> 0%R) by (intros E; rewrite E, Rabs_R0 in W1; lra).
  revert WB EW VI NW EA. generalize (val W) (val a). clear - W1 W2 Nw. intros n u WB EW VI NW EA.
  destruct (rnd_split (1 / n)) as (e & h & E & H & Q). rewrite <- VI in Q. clear VI.
  assert (HN : (Rabs (h * n) <= / 1000000000000)%R).
  { rewrite Rabs_mult. apply (Rle_trans _ (pow2 (-150) * pow2 56)); [apply Rmult_le_compat; try apply Rabs_pos; [exact H|]; change 56 with (55 + 1)%Z; rewrite pow_succ; lra|]. rewrite <- bpow_plus. change (-150 + 56)%Z with (- (94))%Z. rewrite bpow_opp, <- (IZR_Zpower radix2 94) by lia. apply Rinv_le; [lra|apply IZR_le; vm_compute; discriminate]. }
  assert (EI : (i * n = 1 + e + h * n)%R) by (rewrite Q; field; exact NW).
  set (o := (i * n)%R) in *. assert (OB : (Rabs (o - 1) <= 61 / 1000000000)%R) by (rewrite EI; apply Rabs_le_inv in HN, E; apply Rabs_le; lra).
  set (g := (X / w)%R). set (b := (w / n)%R). set (a := (u / w)%R).
  assert (WP : (0 < Rabs w)%R) by lra. assert (WI : (0 < / Rabs w <= 524288)%R) by (split; [apply Rinv_0_lt_compat, WP|]; rewrite <- (Rinv_inv 524288); apply Rinv_le; lra). assert (DD : (Rabs w * / Rabs w = 1)%R) by (apply Rinv_r; lra).
  assert (AB : (Rabs (a - g) <= Rabs g / 16777216 + tiny * 524288)%R).
  { unfold a, g, Rdiv. rewrite <- Rmult_minus_distr_r, !Rabs_mult, Rabs_inv. apply (Rle_trans _ ((Rabs X / 16777216 + tiny) * / Rabs w)); [apply Rmult_le_compat_r; lra|]. unfold Rdiv. assert (44 * / 100000000000000000000 * / 1000000000000 * / Rabs w <= 44 * / 100000000000000000000 * / 1000000000000 * 524288)%R by (apply Rmult_le_compat_l; lra). lra. }
  assert (BB : (Rabs (b - 1) <= 61 / 1000000000)%R).
  { replace (b - 1)%R with (- (n - w) * / n)%R by (unfold b; field; exact NW). rewrite Rabs_mult, Rabs_Ropp, Rabs_inv. apply (Rmult_le_reg_r (Rabs n)); [lra|]. rewrite Rmult_assoc, Rinv_l, Rmult_1_r by lra. lra. }
  assert (UI : (u * i = a * b * o)%R) by (unfold a, b, o; field; split; assumption). rewrite UI. clearbody a b o g. clear - AB BB OB.
  assert (GP := Rabs_pos g). assert (BO : (Rabs (b * o - 1) <= 123 / 1000000000)%R).
  { replace (b * o - 1)%R with ((b - 1) * (o - 1) + (b - 1) + (o - 1))%R by ring. assert (Rabs ((b - 1) * (o - 1)) <= 61 / 1000000000 * (61 / 1000000000))%R by (rewrite Rabs_mult; apply Rmult_le_compat; try apply Rabs_pos; assumption). pose proof (Rabs_triang ((b - 1) * (o - 1) + (b - 1)) (o - 1)). pose proof (Rabs_triang ((b - 1) * (o - 1)) (b - 1)). lra. }
  assert (UB : (Rabs (a * b * o - g) <= 184 / 1000000000 * Rabs g + tiny * 524289)%R).
  { replace (a * b * o - g)%R with ((a - g) + g * (b * o - 1) + (a - g) * (b * o - 1))%R by ring. assert (T1 : (Rabs (g * (b * o - 1)) <= Rabs g * (123 / 1000000000))%R) by (rewrite Rabs_mult; apply Rmult_le_compat_l; assumption).
    assert (T2 : (Rabs ((a - g) * (b * o - 1)) <= (Rabs g / 16777216 + tiny * 524288) * (123 / 1000000000))%R) by (rewrite Rabs_mult; apply Rmult_le_compat; try apply Rabs_pos; assumption).
    pose proof (Rabs_triang ((a - g) + g * (b * o - 1)) ((a - g) * (b * o - 1))). pose proof (Rabs_triang (a - g) (g * (b * o - 1))). lra. }
  set (t := (a * b * o)%R) in *. clearbody t. assert (M : (Rabs t <= 101 / 100 * Rabs g + tiny * 524289)%R) by (replace t with ((t - g) + g)%R by ring; apply (Rle_trans _ _ _ (Rabs_triang _ _)); lra).
  pose proof (rnd_near _ _ M). replace (rnd t - g)%R with ((rnd t - t) + (t - g))%R by ring. apply (Rle_trans _ _ _ (Rabs_triang _ _)). lra.
Qed.
Lemma micro_most : (val f32_1e6 < 105 / 100 * pow2 (-20))%R.
Proof. destruct (known f32_1e6 false 8796093 (-43) eq_refl) as [_ VM]. rewrite VM. cbn [cond_Zopp]. change (pow2 (-43)) with (/ IZR 8796093022208)%R. change (pow2 (-20)) with (/ IZR 1048576)%R. lra. Qed.
Lemma wide_real n w : (pow2 (-19) <= Rabs w)%R -> (Rabs (n - w) <= Rabs w / 16777216 + tiny)%R -> (105 / 100 * pow2 (-20) < Rabs n)%R.
Proof.
  intros D E. change (pow2 (-19)) with (/ IZR 524288)%R in D. change (pow2 (-20)) with (/ IZR 1048576)%R. pose proof (Rabs_triang (- (n - w)) n) as T. replace (- (n - w) + n)%R with w in T by ring. rewrite Rabs_Ropp in T. lra.
Qed.
Lemma wide_enough lo hi : within 54 lo -> within 54 hi -> (pow2 (-19) <= Rabs (val hi - val lo))%R ->
  lt32 f32_1e6 (abs32 (sub32 hi lo)) = true /\ fin (sub32 hi lo) /\ (Rabs (val hi - val lo) <= pow2 55)%R /\ (Rabs (val (sub32 hi lo) - (val hi - val lo)) <= Rabs (val hi - val lo) / 16777216 + tiny)%R.
Proof.
  intros L H D. destruct (sub_val 54 _ _ ltac:(lia) H L) as [[F W] V]. destruct (abs_fin _ F) as [FA VA]. destruct micro_val as [FM _]. assert (B : (Rabs (val hi - val lo) <= pow2 55)%R) by (destruct L as [_ L], H as [_ H]; change 55 with (54 + 1)%Z; rewrite pow_succ; apply (Rle_trans _ _ _ (Rabs_triang _ _)); rewrite Rabs_Ropp; lra).
  assert (E : (Rabs (val (sub32 hi lo) - (val hi - val lo)) <= Rabs (val hi - val lo) / 16777216 + tiny)%R) by (rewrite V; apply rnd_near; lra). split; [|split; [exact F|split; [exact B|exact E]]].
  apply (lt_val _ _ FM FA). rewrite VA. exact (Rlt_trans _ _ _ micro_most (wide_real _ _ D E)).
Qed.

(** ** Angles *)
Lemma degrees_finite a : moderate a -> finite32 (in_radians a) /\ (exact a = 0 -> exact (in_radians a) = 0) /\ finite32 (times_radian a).
Proof.
  intros M. apply moderate_within in M. assert (WP : within 2 f32_pi) by (apply (within_known f32_pi false 13176795 (-22) 24 eq_refl); lia). assert (W180 : (pow2 7 <= Rabs (val f32_180))%R).
  { destruct (known f32_180 false 11796480 (-16) eq_refl) as [_ V]. rewrite V. cbn [cond_Zopp]. change (pow2 (-16)) with (/ IZR 65536)%R. change (pow2 7) with 128%R. rewrite Rabs_pos_eq; lra. }
  destruct (mul_val 20 2 _ _ ltac:(lia) M WP) as [W V]. unfold in_radians, times_radian. destruct (div_val 22 7 _ _ ltac:(lia) W W180) as [W' V']. split; [apply fin_finite, W'|]. split.
  - intros E. assert (Z : val a = 0%R) by (rewrite <- (exact_val a (proj1 M)), E; apply Rmult_0_l). rewrite Z, Rmult_0_l, round_0 in V; auto with typeclass_instances.
    rewrite V in V'. unfold Rdiv in V'. rewrite Rmult_0_l, round_0 in V'; auto with typeclass_instances. rewrite <- (exact_val _ (proj1 W')) in V'. apply eq_IZR. destruct (Rmult_integral _ _ V') as [K|K]; [exact K|]. exfalso. pose proof (bpow_gt_0 radix2 (-149)). lra.
  - destruct (div_val 2 7 _ _ ltac:(lia) WP W180) as [WQ _]. destruct (mul_val 20 (-5) _ _ ltac:(lia) M WQ) as [[F _] _]. apply fin_finite, F.
Qed.
Lemma bounded_at f a : bounded_function f -> finite32 a -> within 0 (f a).
Proof. intros B F. destruct (B a F) as [FF L]. apply finite_fin in FF. split; [exact FF|]. rewrite <- real_val by exact FF. exact L. Qed.
Lemma small_60 : (pow2 (-60) <= / 1000000000000000)%R.
Proof. change (-60)%Z with (- (60))%Z. rewrite bpow_opp, <- (IZR_Zpower radix2 60) by lia. change (radix2 ^ 60)%Z with 1152921504606846976. apply Rinv_le; lra. Qed.
Lemma axis_below s t : (Rabs s <= sqrt (s * s + t * t))%R.
Proof. rewrite <- (sqrt_Rsqr_abs s). apply sqrt_le_1_alt. unfold Rsqr. pose proof (Rle_0_sqr t) as T. unfold Rsqr in T. lra. Qed.

(** Lemmas about meshes of walls: texture coordinates. *)
From Verif Require Import Base Text Image Sound Quantize ColorText JsonFloat Cfb Mesh Common BaseFacts BiffFacts CommonFacts QuantizeFacts QuantizeMono FlipFacts Browser Builtin SpecBuiltin BuiltinFacts BuiltinReals Polygon SpecPolygon Smooth FloatBounds SmoothFacts SpecSmooth PropertiesSmooth FileSystem FileSystemFacts ItemWall Walls SpecWalls.
From Coq Require Import Reals Lra Floats.SpecFloat ZifyBool.
From Flocq Require Import Core.Core Relative IEEE754.BinarySingleNaN.

#[local] Instance P24 : FLX.Prec_gt_0 24 := eq_refl.
#[local] Instance M24 : Prec_lt_emax 24 128 := eq_refl.
#[local] Instance vexp24 : Valid_exp fexp24 := fexp_correct 24 128 P24.
#[local] Instance vrnd24 : Valid_rnd (round_mode mode_NE) := valid_rnd_round_mode mode_NE.

(** ** The vertices of an outline are bounded *)
Lemma subdivide_units {V} (at_ : f32 -> V) fl : forall fuel t1 t2 v1 v2 l, subdivide at_ fl fuel t1 t2 v1 v2 = Ok l -> unit_t t1 -> unit_t t2 -> (val t1 <= val t2)%R ->
  Forall (fun v => v = v1 \/ exists t, unit_t t /\ v = at_ t) l.
Proof.
  induction fuel as [|fuel IH]; intros t1 t2 v1 v2 l H U1 U2 L; [discriminate|]. cbn [subdivide] in H. cbv zeta in H. destruct (mid_val t1 t2 U1 U2 L) as (UM & [L1 L2] & _).
  destruct (fl v1 v2 _); [injection H as <-; constructor; [left; reflexivity|constructor]|].
  destruct (subdivide at_ fl fuel t1 _ _ _) as [a|] eqn:A; cbn [rbind] in H; [|discriminate]. destruct (subdivide at_ fl fuel (mid_t t1 t2) _ _ _) as [b|] eqn:B; cbn [rbind] in H; [|discriminate]. injection H as <-.
  apply Forall_app. split; [exact (IH _ _ _ _ _ A U1 UM L1)|]. eapply Forall_impl; [|exact (IH _ _ _ _ _ B UM U2 L2)]. intros v [->|X]; [right; exists (mid_t t1 t2); auto|right; exact X].
Qed.
Lemma zero_unit : unit_t f32_zero.
Proof. destruct zero_val as [F V]. split; [exact F|]. rewrite V. lra. Qed.
Lemma one_unit : unit_t f32_one.
Proof. destruct one_val as [F V]. split; [exact F|]. rewrite V. lra. Qed.
Definition bounded_vertex (v : RenderVertex) : Prop := within 54 (rv_x v) /\ within 54 (rv_y v).
Lemma vertices_bounded fuel points accuracy closed vs : Forall (fun p => Forall moderate (flat_coordinates p)) points -> get_vertices fuel points accuracy closed = Ok vs -> Forall bounded_vertex vs.
Proof.
  intros M H. destruct (Z.lt_ge_cases (zlen points) 2) as [N|N]; [unfold get_vertices in H; cbv zeta in H; unfold zlen in N; replace (List.length points <? 2)%nat with true in H by lia; injection H as <-; constructor|].
  rewrite get_vertices_segments in H by exact N. apply segments_inv in H. destruct H as (pieces & -> & F). apply Forall_concat.
  assert (W : forall p, In p points -> moderate_point p).
  { intros p P. rewrite Forall_forall in M. specialize (M p P). unfold flat_coordinates in M. inversion M as [|? ? X M']. inversion M' as [|? ? Y M'']. split; apply moderate_within; assumption. }
  assert (G : Forall (fun i => 0 <= i < segment_count closed points) (steps (segment_count closed points))) by (apply Forall_forall; intros i; apply steps_in).
  revert F G. generalize (steps (segment_count closed points)) as is. intros is. revert pieces. induction is as [|i is IH]; intros pieces F G; inversion F; subst; [constructor|]. inversion G; subst.
  constructor; [|apply IH; assumption]. destruct (segment_step fuel points accuracy closed i ltac:(lia) ltac:(assumption)) as (p0 & p1 & p2 & p3 & C & E). rewrite E in *.
  destruct (controls_in _ _ _ _ _ _ _ C) as (I0 & I1 & I2 & I3). destruct (coincide p1 p2); [match goal with H : Ok [] = Ok _ |- _ => injection H as <- end; constructor|].
  destruct (curve_bounded p0 p1 p2 p3 (W _ I0) (W _ I1) (W _ I2) (W _ I3)) as (BX & BY & _ & _). destruct (W _ I1) as [WX WY].
  match goal with H : subdivide _ _ _ _ _ _ _ = Ok _ |- _ => rename H into S end. revert S BX BY. generalize (curve_new p0 p1 p2 p3). intros cc S BX BY.
  assert (Z1 : (val f32_zero <= val f32_one)%R) by (destruct zero_val as [_ ->]; destruct one_val as [_ ->]; lra).
  eapply Forall_impl; [|exact (subdivide_units _ _ _ _ _ _ _ _ S zero_unit one_unit Z1)]. intros v [->|(t & U & ->)].
  - split; [exact (within_mono 20 54 _ ltac:(lia) WX)|exact (within_mono 20 54 _ ltac:(lia) WY)].
  - split; [apply (cubic_val _ _ BX U)|apply (cubic_val _ _ BY U)].
Qed.

(** ** Arithmetic with results known to be small *)
Lemma mul_small x y : fin x -> fin y -> (Rabs (val x * val y) <= pow2 2)%R -> fin (mul32 x y) /\ val (mul32 x y) = rnd (val x * val y).
Proof.
  intros FX FY B. pose proof (Bmult_correct 24 128 P24 M24 mode_NE (b32_of x) (b32_of y)) as C. rewrite (small_bool 2) in C by (lia || exact B). destruct C as (C1 & C2 & _).
  unfold fin, val in *. rewrite of_mul. rewrite FX, FY in C2. split; assumption.
Qed.
Lemma div_small x y : fin x -> (val y <> 0)%R -> (Rabs (val x / val y) <= pow2 2)%R -> fin (div32 x y) /\ val (div32 x y) = rnd (val x / val y).
Proof.
  intros FX NZ B. pose proof (Bdiv_correct 24 128 P24 M24 mode_NE (b32_of x) (b32_of y) NZ) as C. rewrite (small_bool 2) in C by (lia || exact B). destruct C as (C1 & C2 & _).
  unfold fin, val in *. rewrite of_div. rewrite FX in C2. split; assumption.
Qed.
Lemma eq_val x y : fin x -> fin y -> eq32b x y = true <-> val x = val y.
Proof.
  intros X Y. unfold eq32b, val, fin in *. rewrite <- (b32_of_value x), <- (b32_of_value y). change (SFeqb (B2SF (b32_of x)) (B2SF (b32_of y))) with (Beqb (b32_of x) (b32_of y)).
  rewrite (Beqb_correct _ _ _ _ X Y). split; intros H; [|apply Req_bool_true; exact H]. destruct (Req_bool_spec (B2R (b32_of x)) (B2R (b32_of y))); [assumption|discriminate].
Qed.
Lemma unit_of x : fin x -> (0 <= val x <= 1)%R -> unit_interval x.
Proof. intros F [A B]. destruct zero_val as [FZ VZ]. destruct one_val as [FO VO]. split; apply le_val; try assumption; rewrite ?VZ, ?VO; assumption. Qed.
Definition f32_ulp : f32 := Z_to_w32 0x33800000.
Lemma one_and_half_ulp : rnd (1 + pow2 (-24)) = 1%R.
Proof.
  destruct (known f32_ulp false 8388608 (-47) eq_refl) as [F V]. assert (VU : val f32_ulp = pow2 (-24)).
  { rewrite V. cbn [cond_Zopp]. change 8388608%Z with (radix_val radix2 ^ 23)%Z. rewrite IZR_Zpower by lia. rewrite <- bpow_plus. reflexivity. }
  destruct one_val as [FO VO].
  assert (WO : within 0 f32_one) by (split; [exact FO|]; rewrite VO, Rabs_pos_eq by lra; change (pow2 0) with 1%R; lra).
  assert (WU : within 0 f32_ulp) by (split; [exact F|]; rewrite VU, Rabs_pos_eq by apply bpow_ge_0; apply bpow_le; lia).
  destruct (add_val 0 f32_one f32_ulp ltac:(lia) WO WU) as [_ A]. rewrite VO, VU in A. rewrite <- A. transitivity (val f32_one); [|exact VO]. apply (f_equal val). vm_compute. reflexivity.
Qed.
(** Part of a width, times the inverse of the width, is at most one. *)
Lemma ratio_unit lo hi x : within 54 lo -> within 54 hi -> within 54 x -> (val lo <= val x <= val hi)%R -> (pow2 (-100) <= val hi - val lo)%R ->
  unit_interval (mul32 (sub32 x lo) (div32 f32_one (sub32 hi lo))) /\ (pow2 (-100) <= val (sub32 hi lo))%R /\ fin (sub32 hi lo).
Proof.
  intros WL WH WX [LX XH] D. destruct (sub_val 54 hi lo ltac:(lia) WH WL) as [WW VW]. destruct (sub_val 54 x lo ltac:(lia) WX WL) as [WA VA].
  assert (W1 : (pow2 (-100) <= val (sub32 hi lo))%R) by (rewrite VW; apply round_ge_generic; auto with typeclass_instances; apply pow_format; lia).
  split; [|split; [exact W1|apply WW]].
  assert (A0 : (0 <= val (sub32 x lo) <= val (sub32 hi lo))%R) by (rewrite VA, VW; split; [apply round_pos; lra|apply round_le; auto with typeclass_instances; lra]).
  clear VW VA. revert WW WA W1 A0. generalize (sub32 hi lo) (sub32 x lo). intros w a WW WA W1 A0. pose proof (bpow_gt_0 radix2 (-100)) as P100.
  destruct one_val as [FO VO]. assert (WO : within 0 f32_one) by (split; [exact FO|]; rewrite VO, Rabs_pos_eq by lra; change (pow2 0) with 1%R; lra).
  destruct (div_val 0 (-100) f32_one w ltac:(lia) WO) as [[FI _] VI]; [rewrite Rabs_pos_eq by lra; exact W1|]. rewrite VO in VI.
  assert (WU : (val w <= pow2 55)%R) by (destruct WW as [_ X]; apply (Rle_trans _ _ _ (Rle_abs _)); exact X).
  assert (Q0 : (0 < 1 / val w)%R) by (unfold Rdiv; rewrite Rmult_1_l; apply Rinv_0_lt_compat; lra).
  assert (E : (Rabs (rnd (1 / val w) - 1 / val w) <= / 2 * pow2 (-24 + 1) * Rabs (1 / val w))%R).
  { apply (relative_error_N_FLT radix2 (-149) 24 eq_refl). rewrite Rabs_pos_eq by lra. apply (Rle_trans _ (pow2 (-55))); [apply bpow_le; lia|].
    change (-55)%Z with (- (55))%Z. rewrite bpow_opp. unfold Rdiv. rewrite Rmult_1_l. apply Rinv_le; [lra|exact WU]. }
  rewrite (Rabs_pos_eq (1 / val w)) in E by lra. apply Rabs_le_inv in E. rewrite <- VI in E.
  replace (/ 2 * pow2 (-24 + 1))%R with (pow2 (-24)) in E by (change (-24 + 1)%Z with (1 + -24)%Z; rewrite bpow_plus; change (pow2 1) with 2%R; field).
  assert (I0 : (0 <= val (div32 f32_one w))%R) by (rewrite VI; apply round_pos; lra). revert FI I0 E. generalize (div32 f32_one w). intros i FI I0 E. clear VI.
  assert (U : (val i <= (1 / val w) * (1 + pow2 (-24)))%R) by lra.
  assert (PW : (val w * val i <= 1 + pow2 (-24))%R).
  { apply (Rle_trans _ (val w * ((1 / val w) * (1 + pow2 (-24))))); [apply Rmult_le_compat_l; lra|]. right. field. lra. }
  assert (PA : (0 <= val a * val i <= 1 + pow2 (-24))%R) by (split; [apply Rmult_le_pos; lra|apply (Rle_trans _ (val w * val i)); [apply Rmult_le_compat_r; lra|exact PW]]).
  assert (SM : (pow2 (-24) <= 1)%R) by (change 1%R with (pow2 0); apply bpow_le; lia).
  destruct (mul_small a i (proj1 WA) FI) as [FM VM]; [rewrite Rabs_pos_eq by lra; change (pow2 2) with 4%R; lra|].
  apply unit_of; [exact FM|]. rewrite VM. split; [apply round_pos; lra|]. rewrite <- one_and_half_ulp. apply round_le; auto with typeclass_instances. lra.
Qed.

(** ** The bounding box *)
Lemma fin_not_nan x : fin x -> f32_is_nan x = false.
Proof.
  intros F. destruct (f32_is_nan x) eqn:E; [exfalso|reflexivity]. assert (N : f32_value x = S754_nan).
  { unfold f32_is_nan, exponent_bits, mantissa_bits in E. apply andb_true_iff in E. destruct E as [E1 E2]. unfold f32_value. cbv zeta. rewrite E1. destruct (_ =? 0); [discriminate|reflexivity]. }
  unfold fin in F. pose proof (b32_of_value x) as V. rewrite N in V. destruct (b32_of x); discriminate.
Qed.
Lemma min_fin a b : fin a -> fin b -> fin (min32 a b) /\ (min32 a b = a \/ min32 a b = b) /\ (val (min32 a b) <= val a)%R /\ (val (min32 a b) <= val b)%R.
Proof.
  intros FA FB. unfold min32. rewrite !fin_not_nan by assumption. pose proof (lt_val b a FB FA) as [L L']. destruct (lt32 b a).
  - pose proof (L eq_refl). repeat split; auto; lra.
  - repeat split; auto; [lra|]. apply Rnot_lt_le. intros C. discriminate (L' C).
Qed.
Lemma max_fin a b : fin a -> fin b -> fin (max32 a b) /\ (max32 a b = a \/ max32 a b = b) /\ (val a <= val (max32 a b))%R /\ (val b <= val (max32 a b))%R.
Proof.
  intros FA FB. unfold max32. rewrite !fin_not_nan by assumption. pose proof (lt_val a b FA FB) as [L L']. destruct (lt32 a b).
  - pose proof (L eq_refl). repeat split; auto; lra.
  - repeat split; auto; [lra|]. apply Rnot_lt_le. intros C. discriminate (L' C).
Qed.
Lemma min_first x : fin x -> min32 (f32_inf false) x = x.
Proof.
  intros F. unfold min32. rewrite (fin_not_nan x F). change (f32_is_nan (f32_inf false)) with false. cbv iota. replace (lt32 x (f32_inf false)) with true; [reflexivity|].
  unfold lt32. change (f32_value (f32_inf false)) with (S754_infinity false). unfold fin in F. rewrite <- (b32_of_value x). destruct (b32_of x) as [s|s| |s m e B]; try discriminate; [reflexivity|destruct s; reflexivity].
Qed.
Lemma max_first x : fin x -> max32 (f32_inf true) x = x.
Proof.
  intros F. unfold max32. rewrite (fin_not_nan x F). change (f32_is_nan (f32_inf true)) with false. cbv iota. replace (lt32 (f32_inf true) x) with true; [reflexivity|].
  unfold lt32. change (f32_value (f32_inf true)) with (S754_infinity true). unfold fin in F. rewrite <- (b32_of_value x). destruct (b32_of x) as [s|s| |s m e B]; try discriminate; [reflexivity|destruct s; reflexivity].
Qed.
Lemma fold_min l : forall a, fin a -> Forall fin l -> fin (fold_left min32 l a) /\ In (fold_left min32 l a) (a :: l) /\ forall x, In x (a :: l) -> (val (fold_left min32 l a) <= val x)%R.
Proof.
  induction l as [|b l IH]; intros a FA FL; [cbn; repeat split; auto; intros x [->|[]]; lra|]. inversion FL; subst. destruct (min_fin a b FA ltac:(assumption)) as (F & C & LA & LB).
  cbn [fold_left]. destruct (IH (min32 a b) F ltac:(assumption)) as (F' & I & L). split; [exact F'|]. split.
  - destruct I as [I|I]; [|right; right; exact I]. rewrite <- I. destruct C as [C|C]; rewrite C; [left; reflexivity|right; left; reflexivity].
  - pose proof (L _ (or_introl eq_refl)) as L0. intros x [<-|[<-|I']]; [lra|lra|]. apply L. right. exact I'.
Qed.
Lemma fold_max l : forall a, fin a -> Forall fin l -> fin (fold_left max32 l a) /\ In (fold_left max32 l a) (a :: l) /\ forall x, In x (a :: l) -> (val x <= val (fold_left max32 l a))%R.
Proof.
  induction l as [|b l IH]; intros a FA FL; [cbn; repeat split; auto; intros x [->|[]]; lra|]. inversion FL; subst. destruct (max_fin a b FA ltac:(assumption)) as (F & C & LA & LB).
  cbn [fold_left]. destruct (IH (max32 a b) F ltac:(assumption)) as (F' & I & L). split; [exact F'|]. split.
  - destruct I as [I|I]; [|right; right; exact I]. rewrite <- I. destruct C as [C|C]; rewrite C; [left; reflexivity|right; left; reflexivity].
  - pose proof (L _ (or_introl eq_refl)) as L0. intros x [<-|[<-|I']]; [lra|lra|]. apply L. right. exact I'.
Qed.
Lemma bounds_spec l : l <> [] -> Forall fin l -> In (fst (bounds l)) l /\ In (snd (bounds l)) l /\ forall x, In x l -> (val (fst (bounds l)) <= val x <= val (snd (bounds l)))%R.
Proof.
  intros N F. destruct l as [|a l]; [contradiction|]. inversion F; subst. unfold bounds. cbn [fold_left fst snd]. rewrite min_first, max_first by assumption.
  destruct (fold_min l a ltac:(assumption) ltac:(assumption)) as (_ & I & L). destruct (fold_max l a ltac:(assumption) ltac:(assumption)) as (_ & I' & L'). split; [exact I|]. split; [exact I'|].
  intros x X. split; [apply L, X|apply L', X].
Qed.
Lemma sub_same_zero p x y : -149 <= p < 127 -> within p x -> within p y -> val x = val y -> fin (sub32 x y) /\ val (sub32 x y) = 0%R.
Proof. intros P X Y E. destruct (sub_val p x y P X Y) as [[F _] V]. split; [exact F|]. rewrite V, E, Rminus_eq_0. apply round_0. auto with typeclass_instances. Qed.
Lemma times_zero x : fin x -> (Rabs (val x) <= pow2 120)%R -> unit_interval (mul32 x f32_zero).
Proof.
  intros F B. destruct zero_val as [FZ VZ]. destruct (mul_small x f32_zero F FZ) as [FM VM]; [rewrite VZ, Rmult_0_r, Rabs_R0; apply bpow_ge_0|].
  apply unit_of; [exact FM|]. rewrite VM, VZ, Rmult_0_r, round_0 by auto with typeclass_instances. lra.
Qed.
Lemma exact_far a b : fin a -> fin b -> exact a + 2 ^ 49 <= exact b -> (pow2 (-100) <= val b - val a)%R.
Proof.
  intros A B H. rewrite <- (exact_val a A), <- (exact_val b B). apply IZR_le in H. rewrite plus_IZR in H. pose proof (bpow_gt_0 radix2 (-149)) as P.
  replace (pow2 (-100)) with (IZR (2 ^ 49) * pow2 (-149))%R; [rewrite <- Rmult_minus_distr_r; apply Rmult_le_compat_r; lra|]. change 2%Z with (radix_val radix2). rewrite IZR_Zpower by lia. rewrite <- bpow_plus. reflexivity.
Qed.
Lemma relative_unit l x : Forall (within 54) l -> spread l -> In x l -> unit_interval (relative (bounds l) x).
Proof.
  intros W S X. assert (F : Forall fin l) by (eapply Forall_impl; [|exact W]; intros ? [? _]; assumption). rewrite Forall_forall in W, F.
  destruct (bounds_spec l) as (LO & HI & B); [intros ->; destruct X|apply Forall_forall, F|]. unfold relative. revert LO HI B. generalize (bounds l). intros [lo hi]. cbn [fst snd]. intros LO HI B. unfold inverse.
  pose proof (eq_val hi lo (F _ HI) (F _ LO)) as [E E']. destruct (eq32b hi lo) eqn:Q.
  - destruct (sub_val 54 x lo ltac:(lia) (W _ X) (W _ LO)) as [[FS BS] _]. apply times_zero; [exact FS|]. apply (Rle_trans _ _ _ BS). apply bpow_le. lia.
  - destruct S as [S|(a & b & IA & IB & S)].
    + exfalso. discriminate (E' ltac:(rewrite <- (exact_val hi (F _ HI)), <- (exact_val lo (F _ LO)), (S hi lo HI LO); reflexivity)).
    + apply (ratio_unit lo hi x); auto. apply (Rle_trans _ (val b - val a)); [apply exact_far; auto|]. pose proof (B a IA). pose proof (B b IB). lra.
Qed.
Lemma on_table_unit lo hi x : within 54 lo -> within 54 hi -> within 54 x -> (exact lo <= exact x <= exact hi)%Z -> exact lo + 2 ^ 49 <= exact hi -> unit_interval (on_table lo hi x).
Proof.
  intros WL WH WX B D. pose proof (proj1 WL) as FL. pose proof (proj1 WH) as FH. pose proof (proj1 WX) as FX.
  destruct (ratio_unit lo hi x WL WH WX) as (U & P & FS); [split; apply exact_le; tauto|apply exact_far; assumption|].
  unfold on_table. cbv zeta. replace (eq32b (sub32 hi lo) f32_zero) with false; [exact U|]. symmetry. destruct (eq32b _ _) eqn:E; [exfalso|reflexivity].
  apply (eq_val _ _ FS (proj1 zero_val)) in E. rewrite (proj2 zero_val) in E. rewrite E in P. pose proof (bpow_gt_0 radix2 (-100)). lra.
Qed.

(** ** Coordinates of the sides *)
Definition summed (points : list RenderVertex) (a k : nat) (cur : f32) : f32 := fold_left (fun t l => add32 t (edge_length points l)) (seq a k) cur.
Definition fraction (total cur : f32) : f32 := if lt32 f32_zero total then div32 cur total else f32_zero.
Section Assign.
Variable points : list RenderVertex.
Let n := List.length points.
Lemma assign_len s d t ls : forall cur coords, List.length (assign points s d t ls cur coords) = List.length coords.
Proof. induction ls as [|l ls IH]; intros cur coords; [reflexivity|]. cbn [assign]. rewrite IH. apply length_set_nth. Qed.
Lemma set_nth_at {A} i x (l : list A) d : (i < List.length l)%nat -> nth i (set_nth i x l) d = x.
Proof.
  intros I. pose proof (nth_set_nth l i x i) as E. rewrite Nat.eqb_refl in E. apply (nth_error_nth _ _ d). rewrite E. destruct (nth_error l i) eqn:N; [reflexivity|]. apply nth_error_None in N. lia.
Qed.
Lemma set_nth_other {A} i j x (l : list A) d : i <> j -> nth j (set_nth i x l) d = nth j l d.
Proof.
  intros I. pose proof (nth_set_nth l i x j) as E. replace (i =? j)%nat with false in E by (symmetry; apply Nat.eqb_neq; congruence).
  destruct (nth_error l j) as [y|] eqn:Y; [rewrite (nth_error_nth _ _ d E), (nth_error_nth _ _ d Y); reflexivity|]. apply nth_error_None in E, Y. rewrite !nth_overflow by assumption. reflexivity.
Qed.
Lemma assign_other s d t j : forall m a cur coords, (forall k, (k < m)%nat -> ((a + k) mod n)%nat <> j) -> nth j (assign points s d t (seq a m) cur coords) f32_zero = nth j coords f32_zero.
Proof.
  induction m as [|m IH]; intros a cur coords D; [reflexivity|]. cbn [seq assign]. rewrite IH.
  - apply set_nth_other. specialize (D 0%nat ltac:(lia)). rewrite Nat.add_0_r in D. exact D.
  - intros k K. replace (S a + k)%nat with (a + S k)%nat by lia. apply D. lia.
Qed.
Lemma apart_mod a k : (0 < k < n)%nat -> ((a + k) mod n)%nat <> (a mod n)%nat.
Proof.
  intros K E. pose proof (Nat.div_mod (a + k) n ltac:(lia)) as D1. pose proof (Nat.div_mod a n ltac:(lia)) as D2. rewrite E in D1.
  assert (k = n * ((a + k) / n) - n * (a / n))%nat by lia. assert (Q : ((a + k) / n = a / n \/ a / n + 1 <= (a + k) / n)%nat) by nia. destruct Q; nia.
Qed.
Lemma assign_at s d t : forall m a cur coords k, (m <= n)%nat -> List.length coords = n -> (k < m)%nat ->
  nth ((a + k) mod n) (assign points s d t (seq a m) cur coords) f32_zero = add32 s (mul32 (fraction t (summed points a k cur)) d).
Proof.
  induction m as [|m IH]; intros a cur coords k M L K; [lia|]. cbn [seq assign]. fold (fraction t cur). destruct k as [|k].
  - rewrite Nat.add_0_r. rewrite assign_other; [apply set_nth_at; rewrite L; apply Nat.mod_upper_bound; lia|]. intros k' K'. replace (S a + k')%nat with (a + S k')%nat by lia. apply apart_mod. lia.
  - replace (a + S k)%nat with (S a + k)%nat by lia. rewrite IH; [reflexivity|lia|rewrite length_set_nth; exact L|lia].
Qed.
Lemma section_len i j s e coords : List.length (one_section points i j s e coords) = List.length coords.
Proof. apply assign_len. Qed.
(** A section from the point [i] up to the point [j], not including it, where [j] is one round further if it is not after [i] *)
Lemma section_at i j s e coords k : (i < j <= i + n)%nat -> (i < n)%nat -> List.length coords = n -> (k < j - i)%nat ->
  nth ((i + k) mod n) (one_section points i j s e coords) f32_zero = add32 s (mul32 (fraction (summed points i (j - i) f32_zero) (summed points i k f32_zero)) (sub32 e s)).
Proof.
  intros J I L K. unfold one_section. cbv zeta. fold n. rewrite (Nat.mod_small i n) by exact I.
  assert (E : ((if (j mod n <=? i)%nat then j mod n + n else j mod n) = j)%nat).
  { destruct (Nat.lt_ge_cases j n) as [Q|Q]; [rewrite Nat.mod_small by exact Q; replace (j <=? i)%nat with false by lia; reflexivity|].
    assert (Q' : (j mod n = j - n)%nat) by (replace j with ((j - n) + 1 * n)%nat at 1 by lia; rewrite Nat.mod_add by lia; apply Nat.mod_small; lia). rewrite Q'. replace (j - n <=? i)%nat with true by lia. lia. }
  rewrite E. apply assign_at; [lia|exact L|exact K].
Qed.
Lemma section_other i j s e coords x : (i < j <= i + n)%nat -> (i < n)%nat -> (x < n)%nat -> ((x < i)%nat /\ (j <= x + n)%nat) \/ (j <= x)%nat -> nth x (one_section points i j s e coords) f32_zero = nth x coords f32_zero.
Proof.
  intros J I X C. unfold one_section. cbv zeta. fold n. rewrite (Nat.mod_small i n) by exact I.
  assert (E : ((if (j mod n <=? i)%nat then j mod n + n else j mod n) = j)%nat).
  { destruct (Nat.lt_ge_cases j n) as [Q|Q]; [rewrite Nat.mod_small by exact Q; replace (j <=? i)%nat with false by lia; reflexivity|].
    assert (Q' : (j mod n = j - n)%nat) by (replace j with ((j - n) + 1 * n)%nat at 1 by lia; rewrite Nat.mod_add by lia; apply Nat.mod_small; lia). rewrite Q'. replace (j - n <=? i)%nat with true by lia. lia. }
  rewrite E. apply assign_other. intros k K. destruct (Nat.lt_ge_cases (i + k) n) as [Q|Q]; [rewrite Nat.mod_small by exact Q; lia|].
  replace (i + k)%nat with ((i + k - n) + 1 * n)%nat by lia. rewrite Nat.mod_add by lia. rewrite Nat.mod_small by lia. lia.
Qed.

(** All the sections, from a point with a coordinate of its own to the next one *)
Variable drag_points : list DragPoint.
Definition own_coordinate (i : nat) : f32 := match nth_error drag_points (i mod List.length drag_points)%nat with Some p => dp_tex_coord p | None => f32_zero end.
Inductive rising : list (nat * nat) -> Prop :=
| rising_one p : (snd p < n)%nat -> rising [p]
| rising_more p q r : (snd p < snd q)%nat -> rising (q :: r) -> rising (p :: q :: r).
Lemma rising_first p r : rising (p :: r) -> (snd p < n)%nat.
Proof. revert p. induction r as [|q r IH]; intros p H; inversion H; subst; [assumption|]. match goal with H : rising (q :: r) |- _ => apply IH in H end. lia. Qed.
Lemma rising_after p r : rising (p :: r) -> Forall (fun q => (snd p < snd q < n)%nat) r.
Proof.
  revert p. induction r as [|q r IH]; intros p H; [constructor|]. inversion H; subst. match goal with H : rising (q :: r) |- _ => pose proof (rising_first _ _ H); apply IH in H; rename H into F end.
  constructor; [lia|]. eapply Forall_impl; [|exact F]. intros ? ?. cbn in *. lia.
Qed.
Lemma sections_len no from : forall rest coords, List.length (sections drag_points points no from rest coords) = List.length coords.
Proof. intros rest. revert from. induction rest as [|to rest IH]; intros from coords; [reflexivity|]. cbn [sections]. destruct no; rewrite IH; apply section_len. Qed.
Lemma sections_at first last : forall r p coords, rising (p :: r) -> (last <= snd p)%nat -> List.length coords = n ->
  let result := sections drag_points points false p (r ++ [(first, last + n)%nat]) coords in
  (forall q, In q (p :: r) -> exists total next, nth (snd q) result f32_zero = add32 (own_coordinate (fst q)) (mul32 (fraction total f32_zero) (sub32 (own_coordinate next) (own_coordinate (fst q)))) /\
                                                  (In next (map fst (p :: r)) \/ next = first)) /\
  (forall x, (last <= x < snd p)%nat -> nth x result f32_zero = nth x coords f32_zero).
Proof.
  induction r as [|q r IH]; intros p coords R LP L; cbv zeta.
  - inversion R; subst. cbn [app sections snd fst]. fold own_coordinate. split.
    + intros q [<-|[]]. pose proof (section_at (snd p) (last + n) (own_coordinate (fst p)) (own_coordinate first) coords 0 ltac:(lia) ltac:(assumption) L ltac:(lia)) as E.
      rewrite Nat.add_0_r, Nat.mod_small in E by assumption. eexists _, first. split; [exact E|]. right. reflexivity.
    + intros x X. apply section_other; try lia; assumption.
  - pose proof (rising_first _ _ R) as PN. inversion R as [|? ? ? PQ R']; subst. pose proof (rising_first _ _ R') as QN. pose proof (rising_after _ _ R') as AF. cbn [app sections fst snd]. fold own_coordinate.
    set (coords' := one_section points (snd p) (snd q) (own_coordinate (fst p)) (own_coordinate (fst q)) coords).
    assert (L' : List.length coords' = n) by (unfold coords'; rewrite section_len; exact L).
    destruct (IH q coords' R' ltac:(lia) L') as [A O]. split.
    + intros x [<-|I].
      * rewrite O by lia. pose proof (section_at (snd p) (snd q) (own_coordinate (fst p)) (own_coordinate (fst q)) coords 0 ltac:(lia) PN L ltac:(lia)) as E.
        rewrite Nat.add_0_r, Nat.mod_small in E by assumption. eexists _, (fst q). split; [exact E|]. left. right. left. reflexivity.
      * destruct (A x I) as (total & next & E & C). exists total, next. split; [exact E|]. destruct C as [C|C]; [left; right; exact C|right; exact C].
    + intros x X. rewrite O by lia. apply section_other; lia.
Qed.
End Assign.

(** The drag points with a coordinate of their own *)
Lemma manual_in dps : forall pts i0 j0 j i, In (j, i) (manual_points dps pts i0 j0) <->
  exists k v p, i = (i0 + k)%nat /\ nth_error pts k = Some v /\ rv_control_point v = true /\ j = (j0 + List.length (filter rv_control_point (firstn k pts)))%nat /\ nth_error dps j = Some p /\ dp_has_auto_texture p = false.
Proof.
  induction pts as [|v pts IH]; intros i0 j0 j i; [split; [intros []|intros ([|k] & ? & ? & _ & N & _); discriminate]|]. cbn [manual_points].
  assert (L : forall i1 j1, i1 = S i0 -> (if rv_control_point v then j1 = S j0 else j1 = j0) ->
    (In (j, i) (manual_points dps pts i1 j1) <-> exists k v' p, i = (i0 + S k)%nat /\ nth_error (v :: pts) (S k) = Some v' /\ rv_control_point v' = true /\ j = (j0 + List.length (filter rv_control_point (firstn (S k) (v :: pts))))%nat /\ nth_error dps j = Some p /\ dp_has_auto_texture p = false)).
  { intros i1 j1 -> J. rewrite IH. assert (X : forall k, (j1 + List.length (filter rv_control_point (firstn k pts)) = j0 + List.length (filter rv_control_point (firstn (S k) (v :: pts))))%nat).
    { intros k. cbn [firstn filter]. destruct (rv_control_point v); cbn [List.length]; lia. }
    split; intros (k & v' & p & -> & N & C & E & D); exists k, v', p; (split; [lia|]); (split; [exact N|]); (split; [exact C|]); (split; [rewrite E; [apply X || (symmetry; apply X)]|exact D]). }
  destruct (rv_control_point v) eqn:C.
  - rewrite in_app_iff, (L (S i0) (S j0) eq_refl eq_refl). split.
    + intros [H|(k & v' & p & E)]; [|exists (S k), v', p; exact E]. exists 0%nat, v. destruct (nth_error dps j0) as [p|] eqn:P; [|destruct H]. destruct (dp_has_auto_texture p) eqn:A; [destruct H|]. destruct H as [H|[]]. injection H as <- <-.
      exists p. cbn [firstn filter List.length nth_error]. rewrite !Nat.add_0_r. auto 6.
    + intros ([|k] & v' & p & E & N & C' & J & P & A); [left|right; exists k, v', p; auto 6]. cbn [firstn filter List.length] in J. rewrite Nat.add_0_r in E, J. subst i j. rewrite P, A. left. reflexivity.
  - rewrite (L (S i0) j0 eq_refl eq_refl). split.
    + intros (k & v' & p & E). exists (S k), v', p. exact E.
    + intros ([|k] & v' & p & E & N & C' & D); [cbn in N; injection N as <-; congruence|]. exists k, v', p. auto.
Qed.
Lemma manual_rising dps (points : list RenderVertex) : forall pts i0 j0, (i0 + List.length pts = List.length points)%nat ->
  match manual_points dps pts i0 j0 with [] => True | p :: r => rising points (p :: r) /\ (i0 <= snd p)%nat end.
Proof.
  induction pts as [|v pts IH]; intros i0 j0 N; [exact I|]. cbn [manual_points]. cbn [List.length] in N.
  assert (X : forall j1, match manual_points dps pts (S i0) j1 with [] => True | p :: r => rising points (p :: r) /\ (i0 <= snd p)%nat end).
  { intros j1. specialize (IH (S i0) j1 ltac:(lia)). destruct (manual_points dps pts (S i0) j1); [exact I|]. destruct IH. split; [assumption|lia]. }
  destruct (rv_control_point v); [|apply X]. specialize (IH (S i0) (S j0) ltac:(lia)). specialize (X (S j0)). destruct (nth_error dps j0) as [p|]; [|exact X]. destruct (dp_has_auto_texture p); [exact X|].
  cbn [app]. destruct (manual_points dps pts (S i0) (S j0)) as [|q r]; [split; [constructor; cbn; lia|cbn; lia]|]. split; [|cbn; lia]. destruct IH. constructor; [cbn; lia|assumption].
Qed.
Lemma fraction_zero total : fin (fraction total f32_zero) /\ val (fraction total f32_zero) = 0%R.
Proof.
  unfold fraction. destruct (lt32 f32_zero total) eqn:L; [|exact zero_val]. unfold fin, val. rewrite of_div.
  unfold lt32 in L. rewrite <- (b32_of_value total) in L. pose proof (b32_of_value f32_zero) as Z. change (f32_value f32_zero) with (S754_zero false) in Z, L.
  destruct (b32_of f32_zero) as [s| | |]; try discriminate. destruct (b32_of total) as [s'|s'| |s' m e B]; try discriminate; split; reflexivity.
Qed.
Lemma same_exact x y : fin x -> fin y -> val x = val y -> exact x = exact y.
Proof. intros X Y E. apply Z.le_antisymm; apply exact_le; try assumption; lra. Qed.
Lemma own_value total a b : within 20 a -> within 20 b -> exact (add32 a (mul32 (fraction total f32_zero) (sub32 b a))) = exact a.
Proof.
  intros A B. destruct (fraction_zero total) as [FF VF]. revert FF VF. generalize (fraction total f32_zero). intros f FF VF. destruct (sub_val 20 b a ltac:(lia) B A) as [[FS _] _].
  destruct (mul_small f (sub32 b a) FF FS) as [FM VM]; [rewrite VF, Rmult_0_l, Rabs_R0; apply bpow_ge_0|]. rewrite VF, Rmult_0_l, round_0 in VM by auto with typeclass_instances.
  assert (WM : within 20 (mul32 f (sub32 b a))) by (split; [exact FM|]; rewrite VM, Rabs_R0; apply bpow_ge_0).
  destruct (add_val 20 a _ ltac:(lia) A WM) as [[FA _] VA]. apply same_exact; [exact FA|apply A|]. rewrite VA, VM, Rplus_0_r. apply round_generic; auto with typeclass_instances. apply val_format.
Qed.
Lemma manual_value dps points i j : (forall p, In p dps -> dp_has_auto_texture p = false -> moderate (dp_tex_coord p)) -> In (j, i) (manual_points dps points 0 0) ->
  exists p, nth_error dps j = Some p /\ exact (nth i (compute_side_texture_coords points dps) f32_zero) = exact (dp_tex_coord p).
Proof.
  intros M I. pose proof (manual_rising dps points points 0 0 eq_refl) as R. unfold compute_side_texture_coords. cbv zeta.
  assert (O : forall j' i', In (j', i') (manual_points dps points 0 0) -> exists p, nth_error dps j' = Some p /\ own_coordinate dps j' = dp_tex_coord p /\ own_coordinate dps (j' + List.length dps) = dp_tex_coord p /\ within 20 (dp_tex_coord p)).
  { intros j' i' H. apply manual_in in H. destruct H as (k & v & p & _ & _ & _ & _ & P & A). exists p. split; [exact P|]. assert (L : (j' < List.length dps)%nat) by (apply nth_error_Some; congruence).
    unfold own_coordinate. replace (j' + List.length dps)%nat with (j' + 1 * List.length dps)%nat by lia. rewrite Nat.mod_add, Nat.mod_small, P by lia. split; [reflexivity|]. split; [reflexivity|].
    apply moderate_within, M; [exact (nth_error_In _ _ P)|exact A]. }
  destruct (manual_points dps points 0 0) as [|p0 r]; [destruct I|]. destruct R as [R _].
  destruct (sections_at points dps (fst p0 + List.length dps) (snd p0) r p0 (repeat f32_zero (List.length points)) R (le_n _) (repeat_length _ _)) as [S _].
  destruct (S (j, i) I) as (total & next & E & C). destruct (O j i I) as (p & P & OP & _ & W). exists p. split; [exact P|]. cbn [fst snd] in *. rewrite E, OP. apply own_value; [exact W|].
  destruct C as [C|C].
  - apply in_map_iff in C. destruct C as ([j' i'] & <- & I'). destruct (O j' i' I') as (p' & _ & E' & _ & W'). cbn [fst]. rewrite E'. exact W'.
  - subst next. destruct p0 as [j0 i0]. destruct (O j0 i0 (or_introl eq_refl)) as (p' & _ & _ & E' & W'). cbn [fst]. rewrite E'. exact W'.
Qed.

(** ** Without coordinates of their own *)
Lemma sqrt_of_squares a b : within 55 a -> within 55 b -> within 56 (sqrt32 (add32 (mul32 a a) (mul32 b b))) /\ (0 <= val (sqrt32 (add32 (mul32 a a) (mul32 b b))))%R.
Proof.
  intros A B. destruct (mul_val 55 55 a a ltac:(lia) A A) as [WA VA]. destruct (mul_val 55 55 b b ltac:(lia) B B) as [WB VB].
  destruct (add_val 110 _ _ ltac:(lia) WA WB) as [WS VS]. apply sqrt_val; [lia|exact (within_mono 111 112 _ ltac:(lia) WS)|]. rewrite VS. apply round_pos.
  apply Rplus_le_le_0_compat; [rewrite VA|rewrite VB]; apply round_pos; apply Rle_0_sqr.
Qed.
Lemma edge_bounded points l : Forall bounded_vertex points -> within 56 (edge_length points l) /\ (0 <= val (edge_length points l))%R.
Proof.
  intros F. assert (A : forall k, bounded_vertex (at_round points k)).
  { intros k. unfold at_round. destruct (nth_in_or_default (k mod List.length points) points no_vertex) as [I|E]; [rewrite Forall_forall in F; apply F, I|rewrite E].
    assert (Z : within 54 f32_zero) by (destruct zero_val as [FZ VZ]; split; [exact FZ|]; rewrite VZ, Rabs_R0; apply bpow_ge_0). split; exact Z. }
  destruct (A l) as [X1 Y1]. destruct (A (l + 1)%nat) as [X2 Y2]. unfold edge_length. cbv zeta. apply sqrt_of_squares; [apply (sub_val 54); [lia|exact X2|exact X1]|apply (sub_val 54); [lia|exact Y2|exact Y1]].
Qed.
Lemma summed_step points a k cur : summed points a (S k) cur = add32 (summed points a k cur) (edge_length points (a + k)).
Proof. unfold summed. rewrite seq_S, fold_left_app. reflexivity. Qed.
Definition sum_ok (x : f32) : Prop := fin x /\ (0 <= val x <= pow2 81)%R.
Lemma sum_step x e : sum_ok x -> within 56 e -> (0 <= val e)%R -> sum_ok (add32 x e) /\ (val x <= val (add32 x e))%R.
Proof.
  intros [F [P Q]] W E. assert (WX : within 81 x) by (split; [exact F|rewrite Rabs_pos_eq by exact P; exact Q]). destruct (add_val 81 x e ltac:(lia) WX (within_mono 56 81 _ ltac:(lia) W)) as [[FA _] VA].
  assert (U : (val e <= pow2 56)%R) by (destruct W as [_ W]; apply (Rle_trans _ _ _ (Rle_abs _) W)).
  assert (L : (val x <= val (add32 x e))%R) by (rewrite VA; apply round_ge_generic; auto with typeclass_instances; [apply val_format|lra]).
  split; [split; [exact FA|]|exact L]. split; [lra|]. rewrite VA. apply round_N_le_midp; auto with typeclass_instances; [apply pow_format; lia|].
  rewrite succ_eq_pos by apply bpow_ge_0. rewrite ulp_bpow. change (fexp24 (81 + 1)) with 58%Z. assert (D : pow2 58 = (4 * pow2 56)%R) by (change 58%Z with (2 + 56)%Z; rewrite bpow_plus; reflexivity). rewrite D. pose proof (bpow_gt_0 radix2 56). lra.
Qed.
Lemma summed_ok points k : Forall bounded_vertex points -> sum_ok (summed points 0 k f32_zero).
Proof.
  intros F. induction k as [|k IH]; [destruct zero_val as [FZ VZ]; split; [exact FZ|]; change (summed points 0 0 f32_zero) with f32_zero; rewrite VZ; split; [lra|apply bpow_ge_0]|].
  rewrite summed_step. destruct (edge_bounded points (0 + k) F). apply sum_step; assumption.
Qed.
Lemma summed_mono points k m : Forall bounded_vertex points -> (k <= m)%nat -> (val (summed points 0 k f32_zero) <= val (summed points 0 m f32_zero))%R.
Proof.
  intros F L. induction L as [|m L IH]; [lra|]. rewrite summed_step. destruct (edge_bounded points (0 + m) F). pose proof (sum_step _ (edge_length points (0 + m)) (summed_ok points m F) ltac:(assumption) ltac:(assumption)) as [_ X]. lra.
Qed.
Lemma fraction_ok total x : sum_ok total -> sum_ok x -> (val x <= val total)%R ->
  fin (fraction total x) /\ (0 <= val (fraction total x) <= 1)%R /\ val (fraction total x) = (if lt32 f32_zero total then rnd (val x / val total) else 0)%R.
Proof.
  intros [FT [T0 _]] [FX [X0 _]] L. unfold fraction. pose proof (lt_val f32_zero total (proj1 zero_val) FT) as [P _]. rewrite (proj2 zero_val) in P. destruct (lt32 f32_zero total).
  - specialize (P eq_refl). assert (B : (0 <= val x / val total <= 1)%R).
    { split; [apply Rmult_le_pos; [exact X0|left; apply Rinv_0_lt_compat, P]|]. apply (Rmult_le_reg_r (val total)); [exact P|]. unfold Rdiv. rewrite Rmult_assoc, Rinv_l by lra. lra. }
    destruct (div_small x total FX ltac:(lra)) as [F V]; [rewrite Rabs_pos_eq by lra; change (pow2 2) with 4%R; lra|]. split; [exact F|]. rewrite V. split; [|reflexivity]. split; [apply round_pos; lra|].
    apply round_le_generic; auto with typeclass_instances; [|lra]. change 1%R with (pow2 0). apply pow_format. lia.
  - destruct zero_val as [FZ VZ]. rewrite VZ. split; [exact FZ|]. split; [lra|reflexivity].
Qed.
Lemma unit_scaled f : fin f -> (0 <= val f <= 1)%R -> fin (add32 f32_zero (mul32 f (sub32 f32_one f32_zero))) /\ val (add32 f32_zero (mul32 f (sub32 f32_one f32_zero))) = val f.
Proof.
  intros F B. assert (S1 : sub32 f32_one f32_zero = f32_one) by (vm_compute; reflexivity). rewrite S1. destruct one_val as [FO VO]. destruct zero_val as [FZ VZ].
  destruct (mul_small f f32_one F FO) as [FM VM]; [rewrite VO, Rmult_1_r, Rabs_pos_eq by lra; change (pow2 2) with 4%R; lra|]. rewrite VO, Rmult_1_r, (round_generic _ _ _ (val f) (val_format f)) in VM.
  assert (WM : within 0 (mul32 f f32_one)) by (split; [exact FM|]; rewrite VM, Rabs_pos_eq by lra; change (pow2 0) with 1%R; lra).
  assert (WZ : within 0 f32_zero) by (split; [exact FZ|]; rewrite VZ, Rabs_R0; apply bpow_ge_0).
  destruct (add_val 0 f32_zero (mul32 f f32_one) ltac:(lia) WZ WM) as [[FA _] VA]. split; [exact FA|]. rewrite VA, VZ, VM, Rplus_0_l. apply round_generic; auto with typeclass_instances. apply val_format.
Qed.
Definition run (points : list RenderVertex) (k : nat) : f32 := fraction (summed points 0 (List.length points) f32_zero) (summed points 0 k f32_zero).
Lemma run_mono points k m : Forall bounded_vertex points -> (k <= m <= List.length points)%nat -> (val (run points k) <= val (run points m))%R.
Proof.
  intros F L. pose proof (summed_ok points (List.length points) F) as T. pose proof (summed_mono points k m F ltac:(lia)) as KM.
  destruct (fraction_ok _ _ T (summed_ok points k F) (summed_mono points k (List.length points) F ltac:(lia))) as (_ & _ & E1). destruct (fraction_ok _ _ T (summed_ok points m F) (summed_mono points m (List.length points) F ltac:(lia))) as (_ & _ & E2).
  unfold run. rewrite E1, E2. destruct T as [FT _]. pose proof (lt_val f32_zero _ (proj1 zero_val) FT) as [P _]. rewrite (proj2 zero_val) in P. destruct (lt32 f32_zero _); [|lra].
  specialize (P eq_refl). apply round_le; auto with typeclass_instances. apply Rmult_le_compat_r; [left; apply Rinv_0_lt_compat, P|exact KM].
Qed.
Lemma automatic_value dps points : Forall bounded_vertex points -> manual_points dps points 0 0 = [] -> let c := compute_side_texture_coords points dps in
  (forall k, (k < List.length points)%nat -> fin (nth k c f32_zero) /\ val (nth k c f32_zero) = val (run points k) /\ (0 <= val (run points k) <= 1)%R).
Proof.
  intros F E c k K. unfold c, compute_side_texture_coords. cbv zeta. rewrite E. cbn [sections fst snd].
  pose proof (section_at points 0 (0 + List.length points) f32_zero f32_one (repeat f32_zero (List.length points)) k ltac:(lia) ltac:(lia) (repeat_length _ _) ltac:(lia)) as S.
  rewrite Nat.add_0_l, (Nat.mod_small k) in S by exact K. rewrite S. rewrite !Nat.add_0_l, Nat.sub_0_r. fold (run points k).
  destruct (fraction_ok _ _ (summed_ok points (List.length points) F) (summed_ok points k F) (summed_mono points k (List.length points) F ltac:(lia))) as (FR & B & _). destruct (unit_scaled _ FR B). auto.
Qed.

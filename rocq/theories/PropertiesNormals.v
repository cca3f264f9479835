(** Normals of walls. *)
From Coq Require Import Reals Lra Floats.SpecFloat ZifyBool Lia.
From Verif Require Import Base Text Json Image Sound Quantize QuantizeMono ColorText Cfb JsonFloat Mesh SpecMesh Browser Common Enums ItemWall Builtin SpecBuiltin BuiltinFacts Polygon SpecPolygon PolygonFacts PropertiesPolygon Smooth SpecSmooth PropertiesSmooth Walls SpecWalls WallsFacts WallsReals PropertiesWalls RubberMesh RubberReals PropertiesRubber FloatBounds Ramps SpecRamps RampReals PropertiesRamps PropertiesBuiltin SpecNormals NormalReals.
Local Open Scope Z_scope.

(** ** Normals of the sides of a wall *)
Lemma around_index n i : (i < n)%nat -> after_index n (before_index n i) = i /\ (before_index n i < n)%nat /\ Z.of_nat (before_index n i) = (Z.of_nat i - 1) mod Z.of_nat n /\ Z.of_nat (after_index n i) = (Z.of_nat i + 1) mod Z.of_nat n.
Proof.
  intros I. unfold after_index, before_index. destruct (i =? 0)%nat eqn:E.
  - assert (i = 0)%nat by lia. subst i. replace (n - 1 + 1 <? n)%nat with false by lia. split; [reflexivity|]. split; [lia|]. split.
    + replace (Z.of_nat 0 - 1) with (Z.of_nat n - 1 + (-1) * Z.of_nat n) by lia. rewrite Z.mod_add, Z.mod_small by lia. lia.
    + destruct (0 + 1 <? n)%nat eqn:L; [rewrite Z.mod_small by lia; lia|]. replace n with 1%nat by lia. reflexivity.
  - replace (i - 1 + 1 <? n)%nat with true by lia. split; [lia|]. split; [lia|]. split; [rewrite Z.mod_small by lia; lia|].
    destruct (i + 1 <? n)%nat eqn:L; [rewrite Z.mod_small by lia; lia|]. replace (Z.of_nat i + 1) with (Z.of_nat n) by lia. rewrite Z.mod_same by lia. reflexivity.
Qed.
(** The normals of a side lie flat. At a sharp corner of the outline they are at right angles to the side; at a smooth one they are in the middle between the two sides. *)
Theorem C63_normals : forall fuel w vs textured points, moderate_wall w -> shows_sides fuel w vs textured -> get_vertices fuel (Wall_drag_points w) f32_four true = Ok points ->
  forall i o p q r, let n := zlen points in 0 <= i < n ->
  nth_error points (Z.to_nat ((i - 1) mod n)) = Some o -> nth_error points (Z.to_nat i) = Some p -> nth_error points (Z.to_nat ((i + 1) mod n)) = Some q -> nth_error points (Z.to_nat ((i + 2) mod n)) = Some r ->
  apart o p -> apart p q -> apart q r ->
  forall k v, 0 <= k < 4 -> nth_error vs (Z.to_nat (4 * i + k)) = Some v ->
  v_nz (w_vertex v) = f32_zero /\
  if k <? 2 then corner_normal_between (rv_smooth p) (right_angle p q) (right_angle o p) (v_nx (w_vertex v)) (v_ny (w_vertex v))
  else corner_normal_between (rv_smooth q) (right_angle p q) (right_angle q r) (v_nx (w_vertex v)) (v_ny (w_vertex v)).
Proof.
  intros fuel w vs textured points M S G i o p q r n I EO EP EQ ER AO AP AQ k v K V. destruct (sides_of fuel w vs textured points S G) as [N E]. apply E in V; [|fold n; lia]. destruct V as (x & -> & X). clear E. cbn [wrap w_vertex].
  set (coords := if textured then _ else _) in X. clearbody coords. cbn [build_side_mesh fst] in X. apply flat4 in X; [|reflexivity]. destruct X as (j & NJ & X). apply nth_seq0 in NJ. destruct NJ as [-> J].
  assert (KI : (Z.to_nat (4 * i + k) / 4)%nat = Z.to_nat i) by (apply Nat2Z.inj; rewrite Nat2Z.inj_div, !Z2Nat.id by lia; change (Z.of_nat 4) with 4; Z.div_mod_to_equations; lia).
  assert (KM : (Z.to_nat (4 * i + k) mod 4)%nat = Z.to_nat k) by (apply Nat2Z.inj; rewrite Nat2Z.inj_mod, !Z2Nat.id by lia; change (Z.of_nat 4) with 4; Z.div_mod_to_equations; lia).
  rewrite KI in *. rewrite KM in X. clear KI KM. set (m := Z.to_nat i) in *. assert (IM : i = Z.of_nat m) by (unfold m; lia). fold (zlen points) in *.
  destruct (around_index (List.length points) m J) as (AB & BB & ZB & ZA). unfold n, zlen in EO, EQ, ER. rewrite IM in EO, EQ, ER. rewrite <- ZB, Nat2Z.id in EO. rewrite <- ZA, Nat2Z.id in EQ.
  assert (J2 : (after_index (List.length points) m < List.length points)%nat) by (apply after_in, J). destruct (around_index _ _ J2) as (_ & _ & _ & ZA2). rewrite ZA in ZA2. rewrite Zplus_mod_idemp_l in ZA2. replace (Z.of_nat m + 1 + 1) with (Z.of_nat m + 2) in ZA2 by lia. rewrite <- ZA2, Nat2Z.id in ER.
  pose proof (vertices_bounded _ _ _ _ _ M G) as B. rewrite Forall_forall in B. assert (BV : forall j z, nth_error points j = Some z -> bounded_vertex z /\ nth j points no_vertex = z) by (intros j z Z; split; [apply B, (nth_error_In _ _ Z)|apply nth_error_nth, Z]).
  destruct (BV _ _ EO) as [BO NO]. destruct (BV _ _ EP) as [BP NP]. destruct (BV _ _ EQ) as [BQ NQ]. destruct (BV _ _ ER) as [BR NR].
  destruct (edge_close points m p q NP NQ BP BQ AP) as (E1 & E2 & E3 & E4 & E5). cbv zeta in *.
  pose proof (edge_close points (before_index (List.length points) m) o p NO ltac:(rewrite AB; exact NP) BO BP AO) as F. pose proof (edge_close points (after_index (List.length points) m) q r NQ NR BQ BR AQ) as H. cbv zeta in F, H. destruct F as (F1 & F2 & F3 & F4 & _). destruct H as (H1 & H2 & H3 & H4 & _).
  assert (C0 : let c := corner_normal points m m (before_index (List.length points) m) true in corner_normal_between (rv_smooth p) (right_angle p q) (right_angle o p) (fst c) (neg_f32 (snd c))).
  { replace (rv_smooth p) with (rv_smooth (nth m points no_vertex)) by (rewrite NP; reflexivity). apply corner_close; [exact E5|exact (conj E1 (conj E2 (conj E3 E4)))|]. intros _. exact (conj F1 (conj F2 (conj F3 F4))). }
  assert (C1 : let c := corner_normal points (after_index (List.length points) m) m (after_index (List.length points) m) false in corner_normal_between (rv_smooth q) (right_angle p q) (right_angle q r) (fst c) (neg_f32 (snd c))).
  { replace (rv_smooth q) with (rv_smooth (nth (after_index (List.length points) m) points no_vertex)) by (rewrite NQ; reflexivity). apply corner_close; [exact E5|exact (conj E1 (conj E2 (conj E3 E4)))|]. intros _. exact (conj H1 (conj H2 (conj H3 H4))). }
  cbv zeta in C0, C1. clear - X C0 C1 K. unfold side_vertices in X. cbv zeta in X. revert X C0 C1. generalize (corner_normal points m m (before_index (List.length points) m) true) (corner_normal points (after_index (List.length points) m) m (after_index (List.length points) m) false).
  intros n0 n1 X C0 C1. assert (C : k = 0 \/ k = 1 \/ k = 2 \/ k = 3) by lia. destruct C as [-> |[-> |[-> | ->]]]; cbn in X; injection X as <-; cbn [v_nx v_ny v_nz]; (split; [reflexivity|]); [exact C0|exact C0|exact C1|exact C1].
Qed.
Print Assumptions C63_normals.

(** ** The picture of a built-in mesh *)
Section Texture.
Variable sin cos : f32 -> f32.
Lemma ring_coordinates n k v : 3 <= n -> 0 <= k < 4 * n + 2 -> nth_error (builtin_vertices sin cos n) (Z.to_nat k) = Some v ->
  (k = 0 /\ v_tu v = f32_quarter /\ v_tv v = f32_quarter) \/
  (k = n + 1 /\ v_tu v = f32_three_quarters /\ v_tv v = f32_quarter) \/
  (exists i, 0 <= i < n /\ v_x v = ring_x sin cos n i /\ v_y v = ring_y cos n i /\
     (k = 1 + i /\ v_tu v = top_tu sin cos n i /\ v_tv v = top_tv cos n i \/
      k = n + 2 + i /\ v_tu v = add32 (top_tu sin cos n i) f32_half /\ v_tv v = top_tv cos n i \/
      k = 2 * n + 2 + i /\ v_tu v = side_tu n i /\ v_tv v = f32_half \/
      k = 3 * n + 2 + i /\ v_tu v = side_tu n i /\ v_tv v = f32_one)).
Proof.
  intros N H. unfold Builtin.builtin_vertices. cbv zeta. intros E.
  destruct (Z.eq_dec k 0) as [->|K0]; [injection E as <-; left; repeat split|]. rewrite nth_app_right in E by (change (zlen [_]) with 1; lia). change (zlen [_]) with 1 in E. right.
  destruct (Z_lt_le_dec k (n + 1)) as [K1|K1].
  { rewrite nth_app_left in E by (rewrite map_steps_len; lia). rewrite map_steps_nth in E by lia. injection E as <-. right. exists (k - 1). cbn [v_x v_y v_tu v_tv]. split; [lia|]. split; [reflexivity|]. split; [reflexivity|]. left. split; [lia|]. split; reflexivity. }
  rewrite nth_app_right in E by (rewrite map_steps_len; lia). rewrite map_steps_len in E by lia.
  destruct (Z.eq_dec k (n + 1)) as [->|K2].
  { replace (n + 1 - 1 - n) with 0 in E by lia. injection E as <-. left. split; [reflexivity|]. split; reflexivity. }
  right. rewrite nth_app_right in E by (change (zlen [_]) with 1; lia). change (zlen [_]) with 1 in E.
  destruct (Z_lt_le_dec k (2 * n + 2)) as [K3|K3].
  { rewrite nth_app_left in E by (rewrite map_steps_len; lia). rewrite map_steps_nth in E by lia. injection E as <-. eexists. cbn [v_x v_y v_tu v_tv]. split; [|split; [reflexivity|]; split; [reflexivity|]; right; left; split; [|split; reflexivity]]; lia. }
  rewrite nth_app_right in E by (rewrite map_steps_len; lia). rewrite map_steps_len in E by lia.
  destruct (Z_lt_le_dec k (3 * n + 2)) as [K4|K4].
  { rewrite nth_app_left in E by (rewrite map_steps_len; lia). rewrite map_steps_nth in E by lia. injection E as <-. eexists. cbn [v_x v_y v_tu v_tv]. split; [|split; [reflexivity|]; split; [reflexivity|]; right; right; left; split; [|split; reflexivity]]; lia. }
  rewrite nth_app_right in E by (rewrite map_steps_len; lia). rewrite map_steps_len in E by lia. rewrite map_steps_nth in E by lia. injection E as <-.
  eexists. cbn [v_x v_y v_tu v_tv]. split; [|split; [reflexivity|]; split; [reflexivity|]; right; right; right; split; [|split; reflexivity]]; lia.
Qed.
End Texture.
Lemma quarter_known : (fin f32_quarter /\ val f32_quarter = / 4)%R.
Proof. destruct (known f32_quarter false 8388608 (-25) eq_refl) as [F V]. split; [exact F|]. rewrite V. cbn [SpecFloat.cond_Zopp]. change (pow2 (-25)) with (/ IZR 33554432)%R. lra. Qed.
Lemma quarters_known : (fin f32_three_quarters /\ val f32_three_quarters = 3 / 4)%R.
Proof. destruct (known f32_three_quarters false 12582912 (-24) eq_refl) as [F V]. split; [exact F|]. rewrite V. cbn [SpecFloat.cond_Zopp]. change (pow2 (-24)) with (/ IZR 16777216)%R. lra. Qed.
(** A built-in mesh of n sides whose ends are not degenerate shows its upper end in the left upper quarter of the picture, the lower end beside it and the sides in the lower half;
    on both ends the picture runs along with the coordinates. *)
Theorem C57_texture : forall sin cos sides inside vs fs, let n := w32_to_Z sides in build_builtin sin cos sides inside = Some (vs, fs) -> n <= 2 ^ 24 ->
  (forall w, In w vs -> moderate (v_x (w_vertex w)) /\ moderate (v_y (w_vertex w))) ->
  (exists i j a b, 1 <= i <= n /\ 1 <= j <= n /\ nth_error vs (Z.to_nat i) = Some a /\ nth_error vs (Z.to_nat j) = Some b /\ far_apart (v_x (w_vertex a)) (v_x (w_vertex b))) ->
  (exists i j a b, 1 <= i <= n /\ 1 <= j <= n /\ nth_error vs (Z.to_nat i) = Some a /\ nth_error vs (Z.to_nat j) = Some b /\ far_apart (v_y (w_vertex a)) (v_y (w_vertex b))) ->
  (forall k w, 0 <= k -> nth_error vs (Z.to_nat k) = Some w -> picture_part n k (v_tu (w_vertex w)) (v_tv (w_vertex w))) /\
  (forall i j a b, same_ring n i j -> nth_error vs (Z.to_nat i) = Some a -> nth_error vs (Z.to_nat j) = Some b ->
     ((real (v_x (w_vertex a)) <= real (v_x (w_vertex b)))%R -> (real (v_tu (w_vertex a)) <= real (v_tu (w_vertex b)))%R) /\
     ((real (v_y (w_vertex a)) <= real (v_y (w_vertex b)))%R -> (real (v_tv (w_vertex a)) <= real (v_tv (w_vertex b)))%R)).
Proof.
  intros sin cos sides inside vs fs n H N24 M FX FY. apply build_some in H. fold n in H. destruct H as (N & -> & ->).
  assert (NV : forall k w, 0 <= k -> nth_error (map (mkWrapper (repeat x00 32)) (builtin_vertices sin cos n)) (Z.to_nat k) = Some w -> k < 4 * n + 2 /\ nth_error (builtin_vertices sin cos n) (Z.to_nat k) = Some (w_vertex w)).
  { intros k w K E. assert (NN : nth_error (map (mkWrapper (repeat x00 32)) (builtin_vertices sin cos n)) (Z.to_nat k) <> None) by congruence. apply nth_error_Some in NN. rewrite map_length in NN.
    pose proof (vertices_len sin cos n N) as L. unfold zlen in L. split; [lia|]. rewrite nth_error_map in E. destruct (nth_error (builtin_vertices sin cos n) (Z.to_nat k)) as [v|]; [|discriminate]. injection E as <-. reflexivity. }
  assert (WI : forall i, 0 <= i < n -> within 54 (ring_x sin cos n i) /\ within 54 (ring_y cos n i)).
  { intros i I. destruct (BuiltinFacts.vertex_at sin cos n (1 + i) N ltac:(lia)) as (v & E & _). destruct (ring_coordinates sin cos n (1 + i) v N ltac:(lia) E) as [(K & _)|[(K & _)|(i' & I' & EX & EY & [(K & _)|[(K & _)|[(K & _)|(K & _)]]])]]; try lia.
    assert (i' = i) by lia. subst i'. rewrite <- EX, <- EY. destruct (M (mkWrapper (repeat x00 32) v) (in_map _ _ _ (nth_error_In _ _ E))) as [MX MY]. cbn [w_vertex] in MX, MY. split; apply (within_mono 20); [lia|apply moderate_within; assumption|lia|apply moderate_within; assumption]. }
  assert (AX : exists i j, 0 <= i < n /\ 0 <= j < n /\ far_apart (ring_x sin cos n i) (ring_x sin cos n j)).
  { destruct FX as (i & j & a & b & I & J & EA & EB & F). apply NV in EA, EB; try lia. destruct EA as [_ EA]. destruct EB as [_ EB].
    destruct (ring_coordinates sin cos n i _ N ltac:(lia) EA) as [(K & _)|[(K & _)|(i' & I' & EX & _)]]; try lia. destruct (ring_coordinates sin cos n j _ N ltac:(lia) EB) as [(K & _)|[(K & _)|(j' & J' & EX' & _)]]; try lia.
    exists i', j'. rewrite <- EX, <- EX'. exact (conj I' (conj J' F)). }
  assert (AY : exists i j, 0 <= i < n /\ 0 <= j < n /\ far_apart (ring_y cos n i) (ring_y cos n j)).
  { destruct FY as (i & j & a & b & I & J & EA & EB & F). apply NV in EA, EB; try lia. destruct EA as [_ EA]. destruct EB as [_ EB].
    destruct (ring_coordinates sin cos n i _ N ltac:(lia) EA) as [(K & _)|[(K & _)|(i' & I' & _ & EX & _)]]; try lia. destruct (ring_coordinates sin cos n j _ N ltac:(lia) EB) as [(K & _)|[(K & _)|(j' & J' & _ & EX' & _)]]; try lia.
    exists i', j'. rewrite <- EX, <- EX'. exact (conj I' (conj J' F)). }
  destruct (axis_share n (ring_x sin cos n) N (fun i I => proj1 (WI i I)) AX) as [UX OX]. destruct (axis_share n (ring_y cos n) N (fun i I => proj2 (WI i I)) AY) as [UY OY]. cbv beta in UX, OX, UY, OY.
  change (fun i => half_share (ring_min (map (ring_x sin cos n) (steps n))) (ring_max (map (ring_x sin cos n) (steps n))) (ring_x sin cos n i)) with (top_tu sin cos n) in UX, OX.
  assert (UX' : forall i, 0 <= i < n -> fin (top_tu sin cos n i) /\ (0 <= val (top_tu sin cos n i) <= / 2)%R) by exact UX.
  assert (UY' : forall i, 0 <= i < n -> fin (top_tv cos n i) /\ (0 <= val (top_tv cos n i) <= / 2)%R) by exact UY.
  assert (OX' : forall i j, 0 <= i < n -> 0 <= j < n -> (val (ring_x sin cos n i) <= val (ring_x sin cos n j))%R -> (val (top_tu sin cos n i) <= val (top_tu sin cos n j))%R) by exact OX.
  assert (OY' : forall i j, 0 <= i < n -> 0 <= j < n -> (val (ring_y cos n i) <= val (ring_y cos n j))%R -> (val (top_tv cos n i) <= val (top_tv cos n j))%R) by exact OY.
  clear UX UY OX OY AX AY FX FY M. revert WI UX' UY' OX' OY'.
  pose proof (fun k v => ring_coordinates sin cos n k v N) as RC. revert RC.
  generalize (ring_x sin cos n) (ring_y cos n) (top_tu sin cos n) (top_tv cos n). intros gx gy tu tv RC WI UX UY OX OY.
  destruct quarter_known as [Q1 Q2]. destruct quarters_known as [T1 T2]. destruct half_val as [H1 H2]. destruct one_val as [O1 O2].
  assert (SI : forall i, 0 <= i < n -> fin (side_tu n i) /\ (0 <= val (side_tu n i) <= 1)%R).
  { intros i I. destruct (int_val i ltac:(lia)) as [FI VI]. apply part_unit; [lia|exact FI|]. rewrite VI. split; apply IZR_le; lia. }
  split.
  - intros k w K E. apply NV in E; [|exact K]. destruct E as [K2 E]. unfold picture_part.
    destruct (RC k _ ltac:(lia) E) as [(C & -> & ->)|[(C & -> & ->)|(i & I & _ & _ & [(C & -> & ->)|[(C & -> & ->)|[(C & -> & ->)|(C & -> & ->)]]])]].
    + rewrite !real_val by assumption. split; [apply fin_finite, Q1|]. split; [apply fin_finite, Q1|]. rewrite Q2. split; [intros _; lra|]. split; [lia|]. split; lia.
    + rewrite !real_val by assumption. split; [apply fin_finite, T1|]. split; [apply fin_finite, Q1|]. rewrite Q2, T2. split; [lia|]. split; [intros _; lra|]. split; lia.
    + destruct (UX i I) as [F1 B1]. destruct (UY i I) as [F2 B2]. rewrite !real_val by assumption. split; [apply fin_finite, F1|]. split; [apply fin_finite, F2|]. split; [intros _; split; assumption|]. split; [lia|]. split; lia.
    + destruct (UX i I) as [F1 B1]. destruct (UY i I) as [F2 B2]. destruct (beside _ F1 B1) as (F3 & B3 & _). rewrite !real_val by assumption. split; [apply fin_finite, F3|]. split; [apply fin_finite, F2|]. split; [lia|]. split; [intros _; split; assumption|]. split; lia.
    + destruct (SI i I) as [F1 B1]. rewrite !real_val by assumption. split; [apply fin_finite, F1|]. split; [apply fin_finite, H1|]. split; [lia|]. split; [lia|]. split; [intros _; split; [exact B1|exact H2]|lia].
    + destruct (SI i I) as [F1 B1]. rewrite !real_val by assumption. split; [apply fin_finite, F1|]. split; [apply fin_finite, O1|]. split; [lia|]. split; [lia|]. split; [lia|]. intros _. split; [exact B1|exact O2].
  - intros i j a b R EA EB. unfold same_ring in R. apply NV in EA, EB; try lia. destruct EA as [_ EA]. destruct EB as [_ EB].
    destruct (RC i _ ltac:(lia) EA) as [(C & _)|[(C & _)|(i' & I & XA & YA & CA)]]; try lia. destruct (RC j _ ltac:(lia) EB) as [(C & _)|[(C & _)|(j' & J & XB & YB & CB)]]; try lia.
    destruct (WI i' I) as [[FA _] [FA' _]]. destruct (WI j' J) as [[FB _] [FB' _]]. rewrite XA, YA, XB, YB, !real_val by assumption.
    destruct (UX i' I) as [F1 B1]. destruct (UY i' I) as [F2 B2]. destruct (UX j' J) as [F3 B3]. destruct (UY j' J) as [F4 B4]. destruct (beside _ F1 B1) as (F5 & B5 & S5). destruct (beside _ F3 B3) as (F6 & B6 & _).
    destruct CA as [(C & -> & ->)|[(C & -> & ->)|[(C & _)|(C & _)]]]; try lia; destruct CB as [(D & -> & ->)|[(D & -> & ->)|[(D & _)|(D & _)]]]; try lia; rewrite !real_val by assumption; (split; [intros L|intros L; apply OY; assumption]).
    + apply OX; assumption.
    + apply S5; [exact F3|exact B3|]. apply OX; assumption.
Qed.
Print Assumptions C57_texture.

Lemma apart_case p q : (2 ^ 89 <=? Z.abs (exact (rv_x p) - exact (rv_x q))) || (2 ^ 89 <=? Z.abs (exact (rv_y p) - exact (rv_y q))) = true -> apart p q.
Proof. intros H. apply orb_true_iff in H. destruct H as [H|H]; apply Z.leb_le in H; [left|right]; exact H. Qed.
(** Side 0 of a square wall with smooth and sharp corners *)
Example C63_normals_case : let w := textured_wall square in moderate_wall w /\ shows_sides 151 w (fst (mesh_in w)) true /\ get_vertices 151 (Wall_drag_points w) f32_four true = Ok (outline_of w) /\
  let p i := nth i (outline_of w) no_vertex in 3 < zlen (outline_of w) /\ apart (p (List.length (outline_of w) - 1)%nat) (p 0%nat) /\ apart (p 0%nat) (p 1%nat) /\ apart (p 1%nat) (p 2%nat) /\
  exists v, nth_error (fst (mesh_in w)) 1 = Some v /\ v_nz (w_vertex v) = f32_zero /\ lt32 f32_half (abs32 (v_nx (w_vertex v))) || lt32 f32_half (abs32 (v_ny (w_vertex v))) = true.
Proof.
  cbv zeta. split; [exact C63_total_case|]. split; [apply in_square; vm_compute; reflexivity|]. split; [vm_compute; reflexivity|].
  split; [vm_compute; reflexivity|]. split; [apply apart_case; vm_compute; reflexivity|]. split; [apply apart_case; vm_compute; reflexivity|]. split; [apply apart_case; vm_compute; reflexivity|].
  eexists. split; [vm_compute; reflexivity|]. split; vm_compute; reflexivity.
Qed.
(** A prism with four corners at (1, 1), (1, -1), (-1, -1) and (-1, 1), scaled by its radius *)
Definition sine4 (x : f32) : f32 := if w32_eqb x (ring_angle 4 2) || w32_eqb x (ring_angle 4 3) then f32_minus_one else f32_one.
Definition cosine4 (x : f32) : f32 := if w32_eqb x (ring_angle 4 1) || w32_eqb x (ring_angle 4 2) then f32_minus_one else f32_one.
Example C57_texture_case : exists vs fs, build_builtin sine4 cosine4 (Z_to_w32 4) false = Some (vs, fs) /\
  forallb (fun w => (Z.abs (exact (v_x (w_vertex w))) <=? 2 ^ 20 * 2 ^ 149) && (Z.abs (exact (v_y (w_vertex w))) <=? 2 ^ 20 * 2 ^ 149)) vs = true /\
  map (fun w => (v_tu (w_vertex w), v_tv (w_vertex w))) (firstn 4 (skipn 6 vs)) = [(f32_half, f32_zero); (f32_half, f32_half); (f32_one, f32_half); (f32_one, f32_zero)] /\
  exists a b c, nth_error vs 1 = Some a /\ nth_error vs 2 = Some b /\ nth_error vs 3 = Some c /\ far_apart (v_x (w_vertex a)) (v_x (w_vertex c)) /\ far_apart (v_y (w_vertex a)) (v_y (w_vertex b)).
Proof.
  do 2 eexists. split; [vm_compute; reflexivity|]. split; [vm_compute; reflexivity|]. split; [vm_compute; reflexivity|]. do 3 eexists. split; [reflexivity|]. split; [reflexivity|]. split; [reflexivity|].
  split; vm_compute; discriminate.
Qed.

(** C64: meshes of rubbers.

    The code is in RubberMesh.v; what the property means is in SpecRubber.v. *)
From Coq Require Import Reals Floats.SpecFloat ZifyBool.
From Verif Require Import Base Text Json Image Sound Quantize QuantizeMono ColorText Cfb JsonFloat Mesh SpecMesh Browser Common ItemRubber Builtin SpecBuiltin BuiltinFacts Polygon SpecPolygon PolygonFacts Smooth SpecSmooth PropertiesSmooth Walls SpecWalls WallsFacts WallsReals PropertiesWalls FloatBounds RubberMesh SpecRubber RubberFacts RubberReals.
Local Open Scope Z_scope.

Definition moderate_rubber (r : Rubber) : Prop := Forall (fun p => Forall moderate (flat_coordinates p)) (Rubber_drag_points r).
(** There is something to build: it has a thickness, and two drag points or more *)
Definition buildable (r : Rubber) : Prop := w32_signed (Rubber_thickness r) <> 0 /\ 2 <= zlen (Rubber_drag_points r).
Definition rubber_segments (r : Rubber) (detail_level : Z) : Z := ring_segments detail_level (Rubber_static_rendering r).

(** ** When there is a mesh *)
Lemma neighbour_mod dps i : neighbour true dps i = neighbour true dps (i mod zlen dps).
Proof. unfold neighbour. cbv zeta. rewrite Zmod_mod. reflexivity. Qed.
Lemma neighbour_mod1 dps i : neighbour true dps (i + 1) = neighbour true dps (i mod zlen dps + 1).
Proof. unfold neighbour. cbv zeta. rewrite Zplus_mod_idemp_l. reflexivity. Qed.
Lemma empty_curve fuel dps points : 2 <= zlen dps -> get_vertices fuel dps f32_four true = Ok points -> points = [] <-> one_place dps.
Proof.
  intros N G. split.
  - intros ->. pose proof (C60_corners _ _ _ _ _ G N) as K. cbn in K. symmetry in K. apply map_eq_nil in K. intros i p q P Q. rewrite neighbour_mod in P. rewrite neighbour_mod1 in Q.
    destruct (coincide p q) eqn:E; [reflexivity|exfalso]. unfold kept in K. change (segment_count true dps) with (zlen dps) in K.
    assert (I : In p (flat_map (fun i => match neighbour true dps i, neighbour true dps (i + 1) with Some p, Some q => if coincide p q then [] else [p] | _, _ => [] end) (steps (zlen dps)))).
    { apply in_flat_map. exists (i mod zlen dps). split; [apply steps_in, Z.mod_pos_bound; lia|]. rewrite P, Q, E. left. reflexivity. }
    rewrite K in I. exact I.
  - intros O. pose proof (C60_curve _ _ _ _ _ G) as C. replace (zlen dps <? 2) with false in C by lia. destruct C as (pieces & -> & F). clear G.
    induction F as [|i vs is ps S F IH]; [reflexivity|]. cbn [List.concat]. rewrite IH, app_nil_r. destruct S as (p0 & p1 & p2 & p3 & (P & Q & _) & S). rewrite (O _ _ _ P Q) in S. exact S.
Qed.

Section Build.
Variable sin cos : f32 -> f32.
Lemma build_cases fuel r d points : buildable r -> get_vertices fuel (Rubber_drag_points r) f32_four true = Ok points ->
  match points with
  | [] => build_rubber_mesh sin cos fuel r d = Panic
  | v :: _ => exists vs0, List.length vs0 = Z.to_nat (zlen points * rubber_segments r d) /\
      (let rings := zlen points in let segments := rubber_segments r d in let fs := tube_faces rings segments rings in
       let vs := compute_normals vs0 fs in
       vs0 = ring_vertices sin cos (middle_points points) rings segments (match Rubber_hit_height r with Some h => h | None => Rubber_height r end) (int32 (w32_signed (Rubber_thickness r))) (steps rings) vec_zero /\
       build_rubber_mesh sin cos fuel r d = Ok (Some (map wrap (fst (apply_rotation sin cos vs (Rubber_rot_x r) (Rubber_rot_y r) (Rubber_rot_z r) (Rubber_height r))), fs,
                                                     snd (apply_rotation sin cos vs (Rubber_rot_x r) (Rubber_rot_y r) (Rubber_rot_z r) (Rubber_height r)))))
  end.
Proof.
  intros [T N] G. unfold build_rubber_mesh, generate_mesh. replace (w32_signed (Rubber_thickness r) =? 0) with false by lia. replace (List.length (Rubber_drag_points r) <? 2)%nat with false by (unfold zlen in N; lia).
  rewrite G. cbn [rbind]. destruct points as [|v rest] eqn:E; [reflexivity|]. rewrite <- E.
  assert (L : zlen (middle_points points) - 1 = zlen points) by (rewrite E; unfold middle_points, zlen; rewrite app_length, map_length; cbn [List.length]; lia).
  rewrite L. assert (NE : exists m ms, middle_points points = m :: ms) by (rewrite E; cbn; eauto). destruct NE as (m & ms & ->).
  assert (P : 0 < zlen points) by (rewrite E; unfold zlen; cbn [List.length]; lia). replace (zlen points <? 1) with false by lia.
  eexists. split; [|split; [reflexivity|]].
  - assert (LV : forall is b, List.length (ring_vertices sin cos (m :: ms) (zlen points) (rubber_segments r d) (match Rubber_hit_height r with Some h => h | None => Rubber_height r end) (int32 (w32_signed (Rubber_thickness r))) is b) = (List.length is * Z.to_nat (rubber_segments r d))%nat).
    { induction is as [|i is IH]; intros b; [reflexivity|]. cbn [ring_vertices]. destruct (frame _ _ _ _ _) as [nn bb]. rewrite app_length, map_length, IH. unfold steps. rewrite map_length, seq_length. cbn [List.length]. lia. }
    rewrite LV. unfold steps. rewrite map_length, seq_length. destruct (Z_le_gt_dec 0 (rubber_segments r d)) as [Q|Q]; [rewrite Z2Nat.inj_mul by lia; reflexivity|]. nia.
  - cbn [rbind]. fold (rubber_segments r d). unfold tube_faces. destruct (apply_rotation _ _ _ _ _ _ _) as [a b]. reflexivity.
Qed.
End Build.

(** There is no mesh for a rubber without thickness, or with fewer than two drag points. *)
Theorem C64_none : forall sin cos fuel r d, build_rubber_mesh sin cos fuel r d = Ok None <-> w32_signed (Rubber_thickness r) = 0 \/ zlen (Rubber_drag_points r) < 2.
Proof.
  intros sin cos fuel r d. destruct (Z.eq_dec (w32_signed (Rubber_thickness r)) 0) as [T|T]; [|destruct (Z_lt_le_dec (zlen (Rubber_drag_points r)) 2) as [N|N]].
  - unfold build_rubber_mesh. rewrite T. cbn. tauto.
  - unfold build_rubber_mesh. destruct (_ =? 0); [tauto|]. unfold zlen in *. replace (_ <? 2)%nat with true by lia. tauto.
  - split; [|lia]. intros H. exfalso. destruct (get_vertices fuel (Rubber_drag_points r) f32_four true) as [points|e] eqn:G.
    + pose proof (build_cases sin cos fuel r d points (conj T N) G) as B. destruct points; [congruence|]. destruct B as (vs0 & _ & _ & B). rewrite H in B. discriminate.
    + unfold build_rubber_mesh, generate_mesh in H. replace (w32_signed (Rubber_thickness r) =? 0) with false in H by lia. replace (List.length (Rubber_drag_points r) <? 2)%nat with false in H by (unfold zlen in N; lia). rewrite G in H. discriminate.
Qed.
Print Assumptions C64_none.

(** Every other rubber whose drag points are not all at one place has a mesh, which does not depend on how deep the curve may be divided; one whose
    drag points are all at one place makes the program stop. *)
Theorem C64_total : forall sin cos r d, moderate_rubber r -> buildable r ->
  (~ one_place (Rubber_drag_points r) -> exists m, forall depth, (151 <= depth)%nat -> build_rubber_mesh sin cos depth r d = Ok (Some m)) /\
  (one_place (Rubber_drag_points r) -> forall depth, (151 <= depth)%nat -> build_rubber_mesh sin cos depth r d = Panic).
Proof.
  intros sin cos r d M B. destruct (C60_ends (Rubber_drag_points r) f32_four true M eq_refl) as (points & G). pose proof (empty_curve 151 _ points (proj2 B) (proj1 (G 151%nat (le_n _)))) as E.
  split.
  - intros O. destruct points as [|v rest] eqn:EP; [exfalso; apply O, E; reflexivity|]. rewrite <- EP in *. eexists. intros depth D. destruct (G depth D) as [GD _]. pose proof (build_cases sin cos depth r d points B GD) as C. rewrite EP in C. rewrite <- EP in C. destruct C as (vs0 & _ & EV & C). rewrite C, EV. reflexivity.
  - intros O depth D. apply E in O. subst points. destruct (G depth D) as [GD _]. exact (build_cases sin cos depth r d [] B GD).
Qed.
Print Assumptions C64_total.

(** ** The mesh *)
Lemma got {A} (a b : A) : (Ok (Some a) : res (option A)) = Ok (Some b) -> a = b.
Proof. congruence. Qed.
Lemma mesh_parts sin cos fuel r d points vs fs centre : get_vertices fuel (Rubber_drag_points r) f32_four true = Ok points -> build_rubber_mesh sin cos fuel r d = Ok (Some (vs, fs, centre)) ->
  0 < zlen points /\ fs = tube_faces (zlen points) (rubber_segments r d) (zlen points) /\
  exists vs0, zlen vs0 = Z.max 0 (zlen points * rubber_segments r d) /\
    vs0 = ring_vertices sin cos (middle_points points) (zlen points) (rubber_segments r d) (match Rubber_hit_height r with Some h => h | None => Rubber_height r end) (int32 (w32_signed (Rubber_thickness r))) (steps (zlen points)) vec_zero /\
    vs = map wrap (fst (apply_rotation sin cos (compute_normals vs0 fs) (Rubber_rot_x r) (Rubber_rot_y r) (Rubber_rot_z r) (Rubber_height r))) /\
    centre = snd (apply_rotation sin cos (compute_normals vs0 fs) (Rubber_rot_x r) (Rubber_rot_y r) (Rubber_rot_z r) (Rubber_height r)).
Proof.
  intros G H. assert (B : buildable r).
  { destruct (Z.eq_dec (w32_signed (Rubber_thickness r)) 0) as [T|T]; [rewrite (proj2 (C64_none sin cos fuel r d) (or_introl T)) in H; discriminate|].
    destruct (Z_lt_le_dec (zlen (Rubber_drag_points r)) 2) as [N|N]; [rewrite (proj2 (C64_none sin cos fuel r d) (or_intror N)) in H; discriminate|]. split; assumption. }
  pose proof (build_cases sin cos fuel r d points B G) as C. destruct points as [|v rest] eqn:EP; [congruence|]. rewrite <- EP in *. destruct C as (vs0 & L & EV & C). cbv zeta in C. rewrite C in H. apply got in H.
  split; [rewrite EP; unfold zlen; cbn [List.length]; lia|]. injection H as <- <- <-. split; [reflexivity|]. exists vs0. split; [unfold zlen in *; rewrite L; lia|]. split; [exact EV|]. split; reflexivity.
Qed.
Lemma rotation_len sin cos vs x y z h : zlen (fst (apply_rotation sin cos vs x y z h)) = zlen vs.
Proof. unfold apply_rotation. destruct (_ && _ && _); unfold zlen; cbn [fst]; rewrite map_length; reflexivity. Qed.

(** A ring of vertices for each point of the curve, two triangles for each of them; no triangle has the same corner twice unless the curve has only one
    point. *)
Theorem C64_mesh : forall sin cos fuel r d points vs fs centre, 0 <= d < 2 ^ 32 -> get_vertices fuel (Rubber_drag_points r) f32_four true = Ok points ->
  build_rubber_mesh sin cos fuel r d = Ok (Some (vs, fs, centre)) ->
  exists segments, 6 <= segments /\ (Rubber_static_rendering r = true -> segments = 12) /\ zlen vs = zlen points * segments /\ zlen fs = 2 * zlen vs /\
    Forall stored_vertex vs /\ Forall (face_within 0 (zlen vs - 1)) fs /\ (2 <= zlen points -> Forall distinct_corners fs) /\ vec_z centre = Rubber_height r.
Proof.
  intros sin cos fuel r d points vs fs centre D G H. destruct (mesh_parts _ _ _ _ _ _ _ _ _ G H) as (N & F & vs0 & L & _ & V & C). pose proof (segments_least d (Rubber_static_rendering r) D) as S6. fold (rubber_segments r d) in S6.
  assert (LV : zlen vs = zlen points * rubber_segments r d).
  { rewrite V. unfold zlen at 1. rewrite map_length. change (zlen (fst (apply_rotation sin cos (compute_normals vs0 fs) (Rubber_rot_x r) (Rubber_rot_y r) (Rubber_rot_z r) (Rubber_height r))) = zlen points * rubber_segments r d). rewrite rotation_len, normals_len, L. nia. }
  exists (rubber_segments r d). split; [exact S6|]. split; [unfold rubber_segments, ring_segments; intros ->; reflexivity|]. split; [exact LV|].
  split; [rewrite F, LV, tube_face_count by lia; lia|]. split; [rewrite V; apply Forall_forall; intros w W; apply in_map_iff in W; destruct W as (x & <- & _); apply wrap_stored|].
  split; [rewrite LV, F; apply Forall_forall; intros f; apply (tube_face_in _ _ _ true); [reflexivity|lia]|].
  split; [intros N2; rewrite F; apply Forall_forall; intros f; apply (tube_distinct _ _ _ true); [split; [reflexivity|exact N2]|lia]|].
  rewrite C. unfold apply_rotation. destruct (_ && _ && _); reflexivity.
Qed.
Print Assumptions C64_mesh.

(** The rings are joined to a closed tube: with three points or more on the curve, every edge belongs to one triangle in each of its two directions. *)
Theorem C64_surface : forall sin cos fuel r d points vs fs centre, 0 <= d < 2 ^ 32 -> get_vertices fuel (Rubber_drag_points r) f32_four true = Ok points ->
  build_rubber_mesh sin cos fuel r d = Ok (Some (vs, fs, centre)) -> 3 <= zlen points -> closed_surface (edges fs).
Proof.
  intros sin cos fuel r d points vs fs centre D G H N3. destruct (mesh_parts _ _ _ _ _ _ _ _ _ G H) as (N & F & _). pose proof (segments_least d (Rubber_static_rendering r) D) as S6. fold (rubber_segments r d) in S6.
  rewrite F. pose proof (tube_edges (zlen points) (rubber_segments r d) (zlen points) true eq_refl) as E. destruct (tube_closed (zlen points) (rubber_segments r d) true ltac:(lia) (fun _ => N3) eq_refl) as [ND SW].
  rewrite <- E in ND, SW. unfold on_rings in *. split; [exact (NoDup_map_inv _ _ ND)|]. intros a b I. specialize (SW _ _ (in_map (between (on_ring (rubber_segments r d))) _ _ I)). apply in_map_iff in SW. destruct SW as ([c e] & Q & J).
  assert (INJ : forall x y, on_ring (rubber_segments r d) x = on_ring (rubber_segments r d) y -> x = y).
  { intros x y XY. unfold on_ring in XY. injection XY as X1 X2. rewrite (Z.div_mod x (rubber_segments r d)), (Z.div_mod y (rubber_segments r d)) by lia. rewrite X1, X2. reflexivity. }
  unfold between in Q. cbn [fst snd] in Q. injection Q as Q1 Q2. assert (c = b) by (apply INJ; unfold on_ring; congruence). assert (e = a) by (apply INJ; unfold on_ring; congruence). subst. exact J.
Qed.
Print Assumptions C64_surface.

(** ** Texture coordinates *)
Lemma map_nth_error_inv {A B} (f : A -> B) : forall l k y, nth_error (map f l) k = Some y -> exists x, nth_error l k = Some x /\ y = f x.
Proof. induction l as [|a l IH]; intros [|k] y H; cbn in *; try discriminate; [injection H as <-; eauto|apply IH, H]. Qed.
Lemma rings_at sin cos ms rings segs h t : 0 < segs -> forall m a b k v, nth_error (ring_vertices sin cos ms rings segs h t (map Z.of_nat (seq a m)) b) k = Some v ->
  exists n, let i := Z.of_nat a + Z.of_nat k / segs in 0 <= Z.of_nat k / segs < Z.of_nat m /\ v = ring_vertex sin cos ms rings segs h t n i (Z.of_nat k mod segs).
Proof.
  intros S. induction m as [|m IH]; intros a b k v H; [destruct k; discriminate|]. cbn [seq map ring_vertices] in H. destruct (frame _ _ _ _ _) as [n b'].
  assert (L : List.length (map (ring_vertex sin cos ms rings segs h t n (Z.of_nat a)) (steps segs)) = Z.to_nat segs) by (unfold steps; rewrite !map_length, seq_length; reflexivity).
  apply app_cases in H. rewrite L in H. destruct H as [[K H]|[K H]].
  - exists n. cbv zeta. rewrite Z.div_small, Z.mod_small by lia. split; [lia|]. rewrite Z.add_0_r. unfold steps in H. rewrite map_map in H. apply map_nth_error_inv in H. destruct H as (x & X & ->). apply nth_seq0 in X. destruct X as [-> _]. reflexivity.
  - apply IH in H. destruct H as (n' & I & E). exists n'. cbv zeta in *. rewrite Nat2Z.inj_sub in * by lia. rewrite Z2Nat.id in * by lia.
    replace ((Z.of_nat k - segs) / segs) with (Z.of_nat k / segs - 1) in * by (replace (Z.of_nat k - segs) with (Z.of_nat k + (-1) * segs) by lia; rewrite Z.div_add by lia; lia).
    replace ((Z.of_nat k - segs) mod segs) with (Z.of_nat k mod segs) in * by (replace (Z.of_nat k - segs) with (Z.of_nat k + (-1) * segs) by lia; rewrite Z.mod_add by lia; reflexivity).
    split; [lia|]. rewrite E. f_equal. lia.
Qed.
Lemma normals_nth vs fs k v : nth_error (compute_normals vs fs) k = Some v -> exists v0, nth_error vs k = Some v0 /\ without_normal v = without_normal v0.
Proof.
  intros H. apply (map_nth_error without_normal) in H. rewrite normals_only in H. apply map_nth_error_inv in H. destruct H as (x & X & E). exists x. split; assumption.
Qed.
Lemma rotation_texture sin cos vs x y z h k v : nth_error (fst (apply_rotation sin cos vs x y z h)) k = Some v -> exists v0, nth_error vs k = Some v0 /\ v_tu v = v_tu v0 /\ v_tv v = v_tv v0.
Proof. unfold apply_rotation. destruct (_ && _ && _); cbn [fst]; intros H; apply map_nth_error_inv in H; destruct H as (v0 & V & ->); exists v0; repeat split; assumption. Qed.
(** Texture coordinates are between zero and one, and the first one is the same all round a ring. *)
Theorem C64_texture : forall sin cos fuel r d points vs fs centre, 0 <= d < 2 ^ 32 -> get_vertices fuel (Rubber_drag_points r) f32_four true = Ok points ->
  build_rubber_mesh sin cos fuel r d = Ok (Some (vs, fs, centre)) -> zlen vs <= 2 ^ 24 ->
  (forall v, In v vs -> unit_interval (v_tu (w_vertex v)) /\ unit_interval (v_tv (w_vertex v))) /\
  (forall segments k l v w, zlen vs = zlen points * segments -> k / segments = l / segments -> 0 <= k -> 0 <= l ->
     nth_error vs (Z.to_nat k) = Some v -> nth_error vs (Z.to_nat l) = Some w -> v_tu (w_vertex v) = v_tu (w_vertex w)).
Proof.
  intros sin cos fuel r d points vs fs centre D G H B24. pose proof (C64_mesh _ _ _ _ _ _ _ _ _ D G H) as (segs & S6 & _ & LV & _). destruct (mesh_parts _ _ _ _ _ _ _ _ _ G H) as (N & F & vs0 & L & EV & V & C).
  pose proof (segments_least d (Rubber_static_rendering r) D) as S6'. fold (rubber_segments r d) in S6'.
  assert (ES : segs = rubber_segments r d).
  { assert (zlen vs = zlen points * rubber_segments r d) by (rewrite V; unfold zlen at 1; rewrite map_length; change (zlen (fst (apply_rotation sin cos (compute_normals vs0 fs) (Rubber_rot_x r) (Rubber_rot_y r) (Rubber_rot_z r) (Rubber_height r))) = zlen points * rubber_segments r d); rewrite rotation_len, normals_len, L; nia). nia. }
  rewrite <- ES in *. clear ES.
  assert (T : forall k v, nth_error vs k = Some v -> 0 <= Z.of_nat k / segs < zlen points /\
    (let u0 := mul32 (int32 (Z.of_nat k / segs)) (div32 f32_one (int32 (zlen points))) in v_tu (w_vertex v) = u0 /\ v_tv (w_vertex v) = mul32 (add32 (int32 (Z.of_nat k mod segs)) u0) (div32 f32_one (int32 segs)))).
  { intros k v K. rewrite V in K. apply map_nth_error_inv in K. destruct K as (v1 & K & ->). apply rotation_texture in K. destruct K as (v2 & K & T1 & T2). apply normals_nth in K. destruct K as (v3 & K & W).
    rewrite EV in K. unfold steps in K. apply rings_at in K; [|lia]. destruct K as (n & I & E). cbv zeta in *. split; [rewrite Z2Nat.id in I by lia; exact I|].
    cbn [wrap w_vertex]. rewrite T1, T2. pose proof (f_equal v_tu W) as W1. pose proof (f_equal v_tv W) as W2. cbn [without_normal set_normal v_tu v_tv] in W1, W2. rewrite W1, W2, E. split; reflexivity. }
  split.
  - intros v I. apply In_nth_error in I. destruct I as (k & K). destruct (T k v K) as (I & -> & ->). assert (zlen points <= 2 ^ 24) by nia. assert (segs <= 2 ^ 24) by nia.
    apply texture_units; [lia|lia|exact I|apply Z.mod_pos_bound; lia].
  - intros segments k l v w LS Q K L0 KV LW. assert (segments = segs) by (clear -LS LV N; rewrite LV in LS; apply Z.mul_reg_l in LS; lia). subst segments. destruct (T _ _ KV) as (_ & -> & _). destruct (T _ _ LW) as (_ & -> & _). rewrite !Z2Nat.id by lia. rewrite Q. reflexivity.
Qed.
Print Assumptions C64_texture.

(** ** The place of the mesh *)
(** A rubber that is not turned has its mesh on both sides of the origin, on every axis. *)
Definition on_axis (axis : nat) (v : wrapper) : f32 := match axis with O => v_x (w_vertex v) | S O => v_y (w_vertex v) | _ => v_z (w_vertex v) end.
Definition not_turned (r : Rubber) : Prop := Forall (fun a => finite32 a /\ exact a = 0) [Rubber_rot_x r; Rubber_rot_y r; Rubber_rot_z r].
Lemma finite_fin x : finite32 x -> fin x.
Proof. unfold finite32, fin. rewrite <- (b32_of_value x). destruct (b32_of x); cbn; try contradiction; reflexivity. Qed.
Lemma exact_zero x : finite32 x /\ exact x = 0 -> eq32b x f32_zero = true.
Proof.
  intros [F E]. apply finite_fin in F. destruct zero_val as [FZ VZ]. apply eq_val; [exact F|exact FZ|]. rewrite VZ, <- (exact_val x F), E. apply Rmult_0_l.
Qed.
Theorem C64_centre : forall sin cos fuel r d points vs fs centre, 0 <= d < 2 ^ 32 -> get_vertices fuel (Rubber_drag_points r) f32_four true = Ok points ->
  build_rubber_mesh sin cos fuel r d = Ok (Some (vs, fs, centre)) -> not_turned r ->
  forall axis, Forall (fun v => finite32 (on_axis axis v)) vs -> (exists v, In v vs /\ le32 (on_axis axis v) f32_zero) /\ (exists v, In v vs /\ le32 f32_zero (on_axis axis v)).
Proof.
  intros sin cos fuel r d points vs fs centre D G H T axis F. pose proof (C64_mesh _ _ _ _ _ _ _ _ _ D G H) as (segs & S6 & _ & LV & _). destruct (mesh_parts _ _ _ _ _ _ _ _ _ G H) as (N & _ & vs0 & _ & _ & V & _).
  inversion T as [|? ? T1 T']; subst. inversion T' as [|? ? T2 T'']; subst. inversion T'' as [|? ? T3 _]; subst. apply exact_zero in T1, T2, T3.
  revert LV F. unfold apply_rotation. rewrite T1, T2, T3. cbn [andb fst]. generalize (compute_normals vs0 fs). intros us LV F.
  set (part := fun v : Vtx => match axis with O => v_x v | S O => v_y v | _ => v_z v end).
  assert (E : map (on_axis axis) (map wrap (map (fun v => mkVtx (sub32 (v_x v) (box_middle (map v_x us))) (sub32 (v_y v) (box_middle (map v_y us))) (sub32 (v_z v) (box_middle (map v_z us))) (v_nx v) (v_ny v) (v_nz v) (v_tu v) (v_tv v)) us)) =
              map (fun x => sub32 x (box_middle (map part us))) (map part us)).
  { rewrite !map_map. unfold part. destruct axis as [|[|axis]]; reflexivity. }
  assert (NE : map part us <> []) by (intros C; apply map_eq_nil in C; subst us; cbn [map] in LV; change (zlen (@nil wrapper)) with 0 in LV; clear -LV N S6; nia).
  assert (FA : Forall fin (map (fun x => sub32 x (box_middle (map part us))) (map part us))).
  { rewrite <- E. apply Forall_forall. intros x X. apply in_map_iff in X. destruct X as (v & <- & X). apply finite_fin. exact (proj1 (Forall_forall _ _) F v X). }
  destruct (centred_sides _ NE FA) as [(a & A & LA) (b & B & LB)]. rewrite <- E in A, B. apply in_map_iff in A, B. destruct A as (v & <- & A). destruct B as (w & <- & B). split; [exists v|exists w]; split; assumption.
Qed.
Print Assumptions C64_centre.

(** ** Cases *)
(** Sine and cosine of multiples of a sixth of a turn, as f32 *)
Definition sixth_sin (a : f32) : f32 :=
  let x := w32_to_Z a in
  if x =? 0 then f32_zero else if x <? w32_to_Z (int32 2) then Z_to_w32 0x3f5db3d7 else if x <? w32_to_Z (int32 3) then Z_to_w32 0x3f5db3d7 else if x <? w32_to_Z (int32 4) then f32_zero else Z_to_w32 0xbf5db3d7.
Definition sixth_cos (a : f32) : f32 :=
  let x := w32_to_Z a in
  if x =? 0 then f32_one else if x <? w32_to_Z (int32 2) then f32_half else if x <? w32_to_Z (int32 3) then f32_minus_half else if x <? w32_to_Z (int32 4) then f32_minus_one else if x <? w32_to_Z (int32 5) then f32_minus_half else f32_half.
Definition thick_rubber (dps : list DragPoint) (thickness height : Z) : Rubber :=
  set_Rubber_drag_points dps (set_Rubber_thickness (Z_to_w32 thickness) (set_Rubber_height (int32 height) (set_Rubber_hit_height (Some (int32 height)) (set_Rubber_static_rendering false Rubber_default)))).
Definition triangle : list DragPoint := [auto_point 100 100 false; auto_point 100 200 false; auto_point 200 100 false].
Definition curve_of (r : Rubber) : list RenderVertex := match get_vertices 151 (Rubber_drag_points r) f32_four true with Ok l => l | Fail _ => [] end.
Example C64_none_case : w32_signed (Rubber_thickness (thick_rubber triangle 0 25)) = 0.
Proof. reflexivity. Qed.
Lemma one_place_false dps : forallb (fun i => match neighbour true dps i, neighbour true dps (i + 1) with Some p, Some q => coincide p q | _, _ => true end) (steps (zlen dps)) = false -> ~ one_place dps.
Proof.
  intros H O. assert (X : forallb (fun i => match neighbour true dps i, neighbour true dps (i + 1) with Some p, Some q => coincide p q | _, _ => true end) (steps (zlen dps)) = true); [|congruence].
  apply forallb_forall. intros i _. destruct (neighbour true dps i) as [p|] eqn:P; [|reflexivity]. destruct (neighbour true dps (i + 1)) as [q|] eqn:Q; [|reflexivity]. exact (O i p q P Q).
Qed.
Example C64_total_case : moderate_rubber (thick_rubber triangle 8 25) /\ buildable (thick_rubber triangle 8 25) /\ ~ one_place triangle.
Proof. split; [apply moderate_cases; vm_compute; reflexivity|]. split; [split; vm_compute; discriminate|]. apply one_place_false. vm_compute. reflexivity. Qed.
Example C64_mesh_case : let r := thick_rubber triangle 8 25 in exists points m, get_vertices 151 (Rubber_drag_points r) f32_four true = Ok points /\ build_rubber_mesh sixth_sin sixth_cos 151 r 0 = Ok (Some m) /\ zlen points = 3.
Proof.
  destruct C64_total_case as (M & B & O). destruct (C64_total sixth_sin sixth_cos _ 0 M B) as [T _]. destruct (T O) as (m & E). eexists _, m. split; [vm_compute; reflexivity|]. split; [apply E, le_n|vm_compute; reflexivity].
Qed.
Lemma finite_cases axis vs : forallb (fun v => match f32_value (on_axis axis v) with S754_finite _ _ _ | S754_zero _ => true | _ => false end) vs = true -> Forall (fun v => finite32 (on_axis axis v)) vs.
Proof. intros H. apply Forall_forall. intros v V. rewrite forallb_forall in H. specialize (H v V). unfold finite32. destruct (f32_value _); try discriminate; exact I. Qed.
Example C64_centre_case : let r := thick_rubber triangle 8 25 in not_turned r /\
  exists vs fs centre, build_rubber_mesh sixth_sin sixth_cos 151 r 0 = Ok (Some (vs, fs, centre)) /\ Forall (fun v => finite32 (on_axis 0 v)) vs /\ Forall (fun v => finite32 (on_axis 1 v)) vs /\ Forall (fun v => finite32 (on_axis 2 v)) vs.
Proof.
  split; [repeat constructor|].
  assert (X : match build_rubber_mesh sixth_sin sixth_cos 151 (thick_rubber triangle 8 25) 0 with
              | Ok (Some (vs, _, _)) => forallb (fun k => forallb (fun v => match f32_value (on_axis k v) with S754_finite _ _ _ | S754_zero _ => true | _ => false end) vs) [0; 1; 2]%nat | _ => false end = true) by (vm_compute; reflexivity).
  destruct (build_rubber_mesh _ _ _ _ _) as [[[[vs fs] centre]|]|]; try discriminate. cbn [forallb] in X. apply andb_true_iff in X. destruct X as [X0 X]. apply andb_true_iff in X. destruct X as [X1 X]. apply andb_true_iff in X. destruct X as [X2 _].
  exists vs, fs, centre. split; [reflexivity|]. split; [|split]; apply finite_cases; assumption.
Qed.

(** ** What does not hold *)
(** Drag points at one place make the program stop. *)
Theorem C64_total_refuted : ~ (forall sin cos depth r d, moderate_rubber r -> (151 <= depth)%nat -> build_rubber_mesh sin cos depth r d <> Panic).
Proof.
  intros H. apply (H sixth_sin sixth_cos 151%nat (thick_rubber [auto_point 5 5 false; auto_point 5 5 false] 8 25) 0); [apply moderate_cases; vm_compute; reflexivity|exact (le_n _)|vm_compute; reflexivity].
Qed.
Print Assumptions C64_total_refuted.
(** With two points on the curve, edges are used twice. *)
Theorem C64_surface_refuted : ~ (forall sin cos fuel r d vs fs centre, moderate_rubber r -> build_rubber_mesh sin cos fuel r d = Ok (Some (vs, fs, centre)) -> closed_surface (edges fs)).
Proof.
  intros H. set (r := thick_rubber [auto_point 0 0 false; auto_point 9 0 false] 8 25).
  assert (M : moderate_rubber r) by (apply moderate_cases; vm_compute; reflexivity). assert (B : buildable r) by (split; vm_compute; discriminate). assert (O : ~ one_place (Rubber_drag_points r)) by (apply one_place_false; vm_compute; reflexivity).
  destruct (proj1 (C64_total sixth_sin sixth_cos r 0 M B) O) as ([[vs fs] centre] & E). specialize (E 151%nat (le_n _)).
  assert (G : get_vertices 151 (Rubber_drag_points r) f32_four true = Ok (curve_of r)) by (vm_compute; reflexivity).
  destruct (H _ _ _ _ _ _ _ _ M E) as [ND _]. destruct (mesh_parts _ _ _ _ _ _ _ _ _ G E) as (_ & F & _). assert (L : zlen (curve_of r) = 2) by (vm_compute; reflexivity).
  rewrite L in F. change (rubber_segments r 0) with 6 in F. rewrite F in ND. revert ND. clear. intros ND. pose proof (proj1 (NoDup_nth_error _) ND 2%nat 71%nat) as X.
  discriminate X; [vm_compute; lia|vm_compute; reflexivity].
Qed.
Print Assumptions C64_surface_refuted.
(** A rubber is as thick as its thickness: not if it is at height zero and its first side points to the origin. Its mesh is then a line. *)
Definition thin_rubber : Rubber := thick_rubber [auto_point 100 100 false; auto_point 200 200 false; auto_point 100 200 false] 8 0.
Definition flat_mesh (m : res (option (list wrapper * list face * Vec3))) : bool := match m with Ok (Some (vs, _, _)) => forallb (fun v => exact (v_z (w_vertex v)) =? 0) vs | _ => false end.
Lemma flat_is m : flat_mesh m = true -> exists vs fs centre, m = Ok (Some (vs, fs, centre)) /\ forall v, In v vs -> exact (v_z (w_vertex v)) = 0.
Proof.
  destruct m as [[[[vs fs] centre]|]|]; try discriminate. intros X. exists vs, fs, centre. split; [reflexivity|]. intros v V. cbn [flat_mesh] in X. rewrite forallb_forall in X. apply Z.eqb_eq, (X v V).
Qed.
Theorem C64_thickness_refuted : ~ (forall fuel r d vs fs centre, moderate_rubber r -> not_turned r -> 0 < w32_signed (Rubber_thickness r) -> build_rubber_mesh sixth_sin sixth_cos fuel r d = Ok (Some (vs, fs, centre)) ->
  exists v, In v vs /\ exact (v_z (w_vertex v)) <> 0).
Proof.
  intros H. assert (X : flat_mesh (build_rubber_mesh sixth_sin sixth_cos 151 thin_rubber 0) = true) by (vm_compute; reflexivity). apply flat_is in X. destruct X as (vs & fs & centre & B & X).
  assert (M : moderate_rubber thin_rubber) by (apply moderate_cases; vm_compute; reflexivity). assert (T : not_turned thin_rubber) by (repeat constructor). assert (P : 0 < w32_signed (Rubber_thickness thin_rubber)) by (vm_compute; reflexivity).
  destruct (H _ _ _ _ _ _ M T P B) as (v & V & Z). exact (Z (X v V)).
Qed.
Print Assumptions C64_thickness_refuted.

(** C65: meshes of ramps.

    The code is in Ramps.v; what the property means is in SpecRamps.v. *)
From Coq Require Import Reals Lra Floats.SpecFloat ZifyBool.
From Verif Require Import Base Text Json Image Sound Quantize QuantizeMono ColorText Cfb JsonFloat Mesh SpecMesh Browser Common Enums ItemRamp Builtin SpecBuiltin BuiltinFacts Polygon SpecPolygon PolygonFacts Smooth SpecSmooth PropertiesSmooth Walls SpecWalls WallsFacts WallsReals PropertiesWalls FloatBounds SmoothFacts RubberMesh SpecRubber RubberFacts RubberReals PropertiesRubber Ramps SpecRamps RampFacts RampReals.
Local Open Scope Z_scope.

(** ** When there is a mesh *)
Lemma zero_exact x : eq32b x f32_zero = true -> finite32 x /\ exact x = 0.
Proof.
  unfold eq32b, finite32, exact. replace (f32_value f32_zero) with (S754_zero false) by reflexivity. destruct (f32_value x) as [s|s| |s m e]; cbn; try (destruct s); try discriminate; intros _; split; trivial.
Qed.
Lemma built {A B} (a c : A) (b d : B) : Some (a, b) = Some (c, d) -> c = a /\ d = b.
Proof. intros E. injection E as -> ->. split; reflexivity. Qed.
Lemma no_width_is r : (eq32b (Ramp_width_bottom r) f32_zero && eq32b (Ramp_width_top r) f32_zero = true) <-> no_width r.
Proof.
  rewrite andb_true_iff. unfold no_width. split.
  - intros [A B]. repeat constructor; apply zero_exact; assumption.
  - intros H. inversion H as [|? ? A H']; subst. inversion H' as [|? ? B _]; subst. split; apply exact_zero; assumption.
Qed.
(** There is no mesh for a ramp whose widths are both zero, or whose curve has fewer than two vertices; every other ramp has one. *)
Theorem C65_none : forall sin cos fuel r td d o, 0 <= d < 2 ^ 32 ->
  build_ramp_mesh sin cos fuel r td d o = Ok None <-> no_width r \/ exists curve, get_vertices3 fuel (Ramp_drag_points r) f32_four = Ok curve /\ zlen curve < 2.
Proof.
  intros sin cos fuel r td d o D. unfold build_ramp_mesh. pose proof (no_width_is r) as NW. destruct (eq32b (Ramp_width_bottom r) f32_zero && eq32b (Ramp_width_top r) f32_zero); [tauto|].
  assert (X : ~ no_width r) by (intros W; apply NW in W; discriminate). destruct (get_vertices3 fuel (Ramp_drag_points r) f32_four) as [curve|e] eqn:G; cbn [rbind].
  - destruct (List.length curve <? 2)%nat eqn:N; [split; [intros _; right; exists curve; split; [reflexivity|unfold zlen; lia]|reflexivity]|].
    split; [|intros [W|(c & E & L)]; [contradiction|injection E as <-; unfold zlen in L; lia]]. intros H. exfalso. destruct (is_habitrail r) eqn:Hab.
    + rewrite build_wire in H; [discriminate|lia|unfold is_habitrail in Hab; intros T; rewrite T in Hab; discriminate|]. pose proof (segments_least d (negb o) D). lia.
    + rewrite build_flat in H by lia. discriminate.
  - split; [discriminate|]. intros [W|(c & E & _)]; [contradiction|discriminate].
Qed.
Print Assumptions C65_none.

Lemma short_curve fuel dps curve : get_vertices3 fuel dps f32_four = Ok curve -> zlen curve < 2 <-> (zlen dps < 2 \/ one_place3 dps).
Proof.
  intros G. pose proof (C60_ramp_curve _ _ _ _ G) as C. destruct (zlen dps <? 2) eqn:N; [subst curve; split; [left; lia|intros _; reflexivity]|]. destruct C as (pieces & p & -> & _ & F).
  assert (L : zlen (List.concat pieces ++ [mkRV3 (dp_x p) (dp_y p) (dp_z p) true true]) = zlen (List.concat pieces) + 1) by (unfold zlen; rewrite app_length; cbn [List.length]; lia). rewrite L. split.
  - intros E. right. intros i a b I A B. assert (EP : List.concat pieces = []) by (destruct (List.concat pieces); [reflexivity|unfold zlen in E; cbn [List.length] in E; lia]).
    assert (PI : exists vs, In vs pieces /\ segment3 dps f32_four i vs).
    { apply (proj2 (steps_in _ _)) in I. clear - F I. induction F as [|j vs is ps S F IH]; [destruct I|]. destruct I as [->|I]; [exists vs; split; [left; reflexivity|exact S]|]. destruct (IH I) as (w & W & Q). exists w. split; [right; exact W|exact Q]. }
    destruct PI as (vs & V & p0 & p1 & p2 & p3 & (C1 & C2 & _) & S). rewrite A in C1. rewrite B in C2. injection C1 as <-. injection C2 as <-. destruct (coincide3 a b); [reflexivity|exfalso]. destruct S as (ts & -> & _).
    assert (Q : In (corner3_of a) (List.concat pieces)) by (apply in_concat; eexists; split; [exact V|left; reflexivity]). rewrite EP in Q. exact Q.
  - intros [E|O]; [lia|]. assert (EP : List.concat pieces = []); [|rewrite EP; reflexivity].
    assert (IR : Forall (fun i => 0 <= i < zlen dps - 1) (steps (zlen dps - 1))) by (apply Forall_forall; intros i; apply steps_in).
    clear - F O IR. induction F as [|i vs is ps S F IH]; [reflexivity|]. inversion IR; subst. cbn [List.concat]. rewrite IH by assumption. rewrite app_nil_r. destruct S as (p0 & p1 & p2 & p3 & (P & Q & _) & S). match goal with R : 0 <= i < _ |- _ => rewrite (O _ _ _ R P Q) in S end. exact S.
Qed.
(** A ramp with moderate coordinates never makes the program stop, and its mesh does not depend on how deep the curve may be divided. *)
Theorem C65_total : forall sin cos r td d o, moderate_ramp r -> 0 <= d < 2 ^ 32 ->
  exists m, (forall depth, (151 <= depth)%nat -> build_ramp_mesh sin cos depth r td d o = Ok m) /\ (m = None <-> no_width r \/ zlen (Ramp_drag_points r) < 2 \/ one_place3 (Ramp_drag_points r)).
Proof.
  intros sin cos r td d o M D. destruct (C60_ramp_ends (Ramp_drag_points r) f32_four M eq_refl) as (curve & G).
  assert (E : exists m, forall depth, (151 <= depth)%nat -> build_ramp_mesh sin cos depth r td d o = Ok m).
  { eexists. intros depth L. unfold build_ramp_mesh. instantiate (1 := if eq32b (Ramp_width_bottom r) f32_zero && eq32b (Ramp_width_top r) f32_zero then None else if (List.length curve <? 2)%nat then None else
      if is_habitrail r then build_wire_ramp_mesh sin cos r curve d o else build_flat_ramp_mesh r curve td).
    destruct (_ && _); [reflexivity|]. rewrite (G depth L). cbn [rbind]. destruct (_ <? _)%nat; reflexivity. }
  destruct E as (m & E). exists m. split; [exact E|]. specialize (E 151%nat (le_n _)). specialize (G 151%nat (le_n _)). pose proof (C65_none sin cos 151 r td d o D) as N. rewrite E in N.
  pose proof (short_curve _ _ _ G) as SC. split.
  - intros ->. destruct (proj1 N eq_refl) as [W|(c & Q & L)]; [left; exact W|]. rewrite G in Q. injection Q as <-. right. apply SC, L.
  - intros H. assert (X : @Ok (option (list wrapper * list face)) m = Ok None); [|congruence]. apply N. destruct H as [W|H]; [left; exact W|]. right. exists curve. split; [exact G|]. apply SC, H.
Qed.
Print Assumptions C65_total.

(** ** The mesh *)
Section Shape.
Variable sin cos : f32 -> f32.
Lemma mesh_of fuel r td d o curve vs fs : 0 <= d < 2 ^ 32 -> get_vertices3 fuel (Ramp_drag_points r) f32_four = Ok curve -> build_ramp_mesh sin cos fuel r td d o = Ok (Some (vs, fs)) ->
  (2 <= List.length curve)%nat /\
  (Ramp_ramp_type r = RampType_Flat /\ vs = map wrap (List.concat (map (fun p => compute_normals p (strip_faces (zlen curve))) (flat_parts r td curve))) /\ fs = copies (part_count r) (2 * zlen curve) (strip_faces (zlen curve)) \/
   Ramp_ramp_type r <> RampType_Flat /\ vs = map wrap (List.concat (wire_lists sin cos r curve (ring_segments d (negb o)))) /\
     fs = copies (wire_count (Ramp_ramp_type r)) (zlen curve * ring_segments d (negb o)) (tube_faces (zlen curve) (ring_segments d (negb o)) (zlen curve - 1))).
Proof.
  intros D G H. unfold build_ramp_mesh in H. destruct (_ && _); [discriminate|]. rewrite G in H. cbn [rbind] in H. destruct (List.length curve <? 2)%nat eqn:N; [discriminate|]. split; [lia|]. apply (f_equal (fun x => match x with Ok a => a | Fail _ => None end)) in H. cbv beta iota in H.
  destruct (is_habitrail r) eqn:Hab.
  - right. assert (T : Ramp_ramp_type r <> RampType_Flat) by (unfold is_habitrail in Hab; intros T; rewrite T in Hab; discriminate). split; [exact T|]. pose proof (segments_least d (negb o) D) as S6.
    rewrite build_wire in H; [|lia|exact T|lia]. apply built in H. destruct H as [-> ->]. split; reflexivity.
  - left. rewrite build_flat in H by lia. apply built in H. destruct H as [-> ->]. split; [unfold is_habitrail in Hab; destruct (Ramp_ramp_type r); (reflexivity || discriminate)|]. split; reflexivity.
Qed.
End Shape.

(** A flat ramp has two vertices for each vertex of its curve in the floor and in each visible wall; a wire ramp has a ring for each vertex of its
    curve in each wire. Each vertex stores its coordinates, each triangle has three different vertices of the mesh. *)
Theorem C65_mesh : forall sin cos fuel r td d o curve vs fs, 0 <= d < 2 ^ 32 -> get_vertices3 fuel (Ramp_drag_points r) f32_four = Ok curve -> build_ramp_mesh sin cos fuel r td d o = Ok (Some (vs, fs)) ->
  Forall stored_vertex vs /\ Forall (face_within 0 (zlen vs - 1)) fs /\ Forall distinct_corners fs /\
  (Ramp_ramp_type r = RampType_Flat -> zlen vs = part_count r * (2 * zlen curve) /\ zlen fs = part_count r * (2 * (zlen curve - 1))) /\
  (Ramp_ramp_type r <> RampType_Flat -> exists segments, 6 <= segments /\ (o = false -> segments = 12) /\
     zlen vs = wire_count (Ramp_ramp_type r) * (zlen curve * segments) /\ zlen fs = wire_count (Ramp_ramp_type r) * (2 * ((zlen curve - 1) * segments))).
Proof.
  intros sin cos fuel r td d o curve vs fs D G H. destruct (mesh_of _ _ _ _ _ _ _ _ _ _ D G H) as [N C]. pose proof (segments_least d (negb o) D) as S6.
  assert (ST : Forall stored_vertex vs) by (destruct C as [(_ & -> & _)|(_ & -> & _)]; apply Forall_forall; intros w W; apply in_map_iff in W; destruct W as (x & <- & _); apply wrap_stored). split; [exact ST|].
  assert (N2 : 2 <= zlen curve) by (unfold zlen; lia). destruct C as [(T & EV & EF)|(T & EV & EF)].
  - destruct (flat_parts_len r td curve) as [FL FC]. assert (LV : zlen vs = part_count r * (2 * zlen curve)).
    { rewrite EV. unfold zlen at 1. rewrite map_length. rewrite (concat_len (2 * List.length curve)); [rewrite map_length; rewrite <- FC; unfold zlen; lia|]. apply Forall_map. eapply Forall_impl; [|exact FL]. intros l L. rewrite normals_length. exact L. }
    split; [rewrite LV, EF; apply copies_within; [lia|]; exact (strip_in (zlen curve))|]. split; [rewrite EF; apply copies_distinct, strip_distinct|]. split; [|intros Q; contradiction]. intros _. split; [exact LV|].
    rewrite EF, copies_len by (unfold part_count, one_if; destruct (right_wall r), (left_wall r); lia). rewrite strip_len by lia. reflexivity.
  - destruct (wire_lists_len sin cos r curve (ring_segments d (negb o))) as [FL FC]. assert (LV : zlen vs = wire_count (Ramp_ramp_type r) * (zlen curve * ring_segments d (negb o))).
    { rewrite EV. unfold zlen at 1. rewrite map_length. rewrite (concat_len _ _ FL), <- FC. unfold zlen. nia. }
    split; [rewrite LV, EF; apply copies_within; [nia|]; apply Forall_forall; intros f; apply (tube_face_in _ _ _ false); [reflexivity|lia]|].
    split; [rewrite EF; apply copies_distinct, Forall_forall; intros f; apply (tube_distinct _ _ _ false); [reflexivity|lia]|]. split; [intros Q; contradiction|]. intros _. exists (ring_segments d (negb o)). split; [exact S6|].
    split; [intros ->; reflexivity|]. split; [exact LV|]. rewrite EF, copies_len by (destruct (Ramp_ramp_type r); cbn; lia). rewrite tube_face_count by lia. reflexivity.
Qed.
Print Assumptions C65_mesh.

(** The floor and each wall of a flat ramp is a strip without holes, open all round; each wire is a tube without holes, open at its two ends. *)
Theorem C65_surface : forall sin cos fuel r td d o curve vs fs, 0 <= d < 2 ^ 32 -> get_vertices3 fuel (Ramp_drag_points r) f32_four = Ok curve -> build_ramp_mesh sin cos fuel r td d o = Ok (Some (vs, fs)) ->
  (Ramp_ramp_type r = RampType_Flat -> closed_surface (in_parts (2 * zlen curve) (edges fs) ++ each_part (part_count r) (strip_outline (zlen curve)))) /\
  (Ramp_ramp_type r <> RampType_Flat -> forall segments, zlen vs = wire_count (Ramp_ramp_type r) * (zlen curve * segments) ->
     closed_surface (in_parts (zlen curve * segments) (edges fs) ++ each_part (wire_count (Ramp_ramp_type r)) (tube_ends (zlen curve) segments))).
Proof.
  intros sin cos fuel r td d o curve vs fs D G H. pose proof (C65_mesh _ _ _ _ _ _ _ _ _ _ D G H) as (_ & _ & _ & _ & LW). destruct (mesh_of _ _ _ _ _ _ _ _ _ _ D G H) as [N C]. pose proof (segments_least d (negb o) D) as S6.
  assert (N2 : 2 <= zlen curve) by (unfold zlen; lia). destruct C as [(T & EV & EF)|(T & EV & EF)]; (split; intros Q; [|]); try contradiction.
  - rewrite EF. apply copies_closed; [exact (strip_in (zlen curve))|apply strip_closed, N2].
  - intros segs L. assert (LV : zlen vs = wire_count (Ramp_ramp_type r) * (zlen curve * ring_segments d (negb o))).
    { destruct (wire_lists_len sin cos r curve (ring_segments d (negb o))) as [FL FC]. rewrite EV. unfold zlen at 1. rewrite map_length. rewrite (concat_len _ _ FL), <- FC. unfold zlen. nia. }
    assert (W1 : 1 <= wire_count (Ramp_ramp_type r)) by (destruct (Ramp_ramp_type r); cbn; (lia || contradiction)).
    assert (ES : segs = ring_segments d (negb o)) by (rewrite LV in L; clear - L N2 W1; apply Z.mul_reg_l in L; [|lia]; apply Z.mul_reg_l in L; lia). rewrite ES, EF.
    apply copies_closed; [apply Forall_forall; intros f; apply (tube_face_in _ _ _ false); [reflexivity|lia]|]. apply tube_open_faces; lia.
Qed.
Print Assumptions C65_surface.

(** ** Where the vertices of a flat ramp are *)
Lemma same_but_normal u v : without_normal u = without_normal v -> position_of u = position_of v /\ v_tu u = v_tu v /\ v_tv u = v_tv v.
Proof. destruct u, v. unfold without_normal, position_of. cbn. intros E. injection E as -> -> -> -> ->. repeat split. Qed.
Lemma flat_vertex r td curve m j l u : nth_error (flat_parts r td curve) m = Some l -> (j < 2 * List.length curve)%nat -> nth_error l j = Some u ->
  exists v, vertex_of (map wrap (List.concat (map (fun p => compute_normals p (strip_faces (zlen curve))) (flat_parts r td curve)))) (Z.of_nat m * (2 * zlen curve) + Z.of_nat j) v /\ without_normal v = without_normal u.
Proof.
  intros M J U. destruct (flat_parts_len r td curve) as [FL _].
  assert (FN : Forall (fun l => List.length l = (2 * List.length curve)%nat) (map (fun p => compute_normals p (strip_faces (zlen curve))) (flat_parts r td curve))) by (apply Forall_map; eapply Forall_impl; [|exact FL]; intros x L; rewrite normals_length; exact L).
  pose proof (concat_nth _ _ m j FN J) as C. rewrite (map_nth_error _ _ _ M) in C.
  assert (L : List.length l = (2 * List.length curve)%nat) by (apply nth_error_In in M; exact (proj1 (Forall_forall _ _) FL l M)).
  destruct (nth_error (compute_normals l (strip_faces (zlen curve))) j) as [v|] eqn:V; [|apply nth_error_None in V; rewrite normals_length in V; lia]. exists v. split.
  - unfold vertex_of. split; [unfold zlen; lia|]. exists (wrap v). split; [|reflexivity]. apply (map_nth_error wrap). replace (Z.to_nat (Z.of_nat m * (2 * zlen curve) + Z.of_nat j)) with (m * (2 * List.length curve) + j)%nat by (unfold zlen; lia). exact C.
  - apply normals_nth in V. destruct V as (v0 & V & E). congruence.
Qed.
Lemma vertex_unique vs k v w : vertex_of vs k v -> vertex_of vs k w -> v = w.
Proof. intros (_ & a & A & <-) (_ & b & B & <-). congruence. Qed.
Lemma floor_nth r td curve i : (i < List.length curve)%nat -> let z := height_at r curve i in let t := ratio_at curve i in let p := right_side r true curve i in let q := left_side r true curve i in
  nth_error (floor_vertices r td curve) (2 * i) = Some (strip_vertex p z (floor_texture r td f32_one p t)) /\ nth_error (floor_vertices r td curve) (2 * i + 1) = Some (strip_vertex q z (floor_texture r td f32_zero q t)).
Proof. intros I. unfold floor_vertices. exact (pairs_nth (fun i => strip_vertex _ _ _) (fun i => strip_vertex _ _ _) _ i I). Qed.
Definition wall_texture (r : Ramp) (curve : list RenderVertex3) (i : nat) : Vec2 := match Ramp_image r with [] => (f32_zero, f32_zero) | _ => if Ramp_image_walls r then (f32_zero, ratio_at curve i) else (f32_zero, f32_zero) end.
Lemma wall_nth r side h curve i : (i < List.length curve)%nat ->
  nth_error (wall_vertices r side h curve) (2 * i) = Some (strip_vertex (side i) (height_at r curve i) (wall_texture r curve i)) /\ nth_error (wall_vertices r side h curve) (2 * i + 1) = Some (strip_vertex (side i) (add32 (height_at r curve i) h) (wall_texture r curve i)).
Proof. intros I. unfold wall_vertices. exact (pairs_nth (fun i => strip_vertex _ _ _) (fun i => strip_vertex _ _ _) _ i I). Qed.
(** What a flat mesh has at a vertex of the curve *)
Lemma floor_at sin cos fuel r td d o curve vs fs i : 0 <= d < 2 ^ 32 -> get_vertices3 fuel (Ramp_drag_points r) f32_four = Ok curve -> build_ramp_mesh sin cos fuel r td d o = Ok (Some (vs, fs)) -> Ramp_ramp_type r = RampType_Flat -> (i < List.length curve)%nat ->
  exists a b, vertex_of vs (2 * Z.of_nat i) a /\ vertex_of vs (2 * Z.of_nat i + 1) b /\
    position_of a = (fst (right_side r true curve i), snd (right_side r true curve i), height_at r curve i) /\ position_of b = (fst (left_side r true curve i), snd (left_side r true curve i), height_at r curve i) /\
    (v_tu a, v_tv a) = floor_texture r td f32_one (right_side r true curve i) (ratio_at curve i) /\ (v_tu b, v_tv b) = floor_texture r td f32_zero (left_side r true curve i) (ratio_at curve i).
Proof.
  intros D G H T I. destruct (mesh_of _ _ _ _ _ _ _ _ _ _ D G H) as [_ [(_ & -> & _)|(Q & _)]]; [|contradiction]. destruct (floor_nth r td curve i I) as [A B].
  destruct (flat_vertex r td curve 0 (2 * i) _ _ eq_refl ltac:(lia) A) as (a & VA & EA). destruct (flat_vertex r td curve 0 (2 * i + 1) _ _ eq_refl ltac:(lia) B) as (b & VB & EB).
  replace (Z.of_nat 0 * (2 * zlen curve) + Z.of_nat (2 * i)) with (2 * Z.of_nat i) in VA by lia. replace (Z.of_nat 0 * (2 * zlen curve) + Z.of_nat (2 * i + 1)) with (2 * Z.of_nat i + 1) in VB by lia.
  exists a, b. split; [exact VA|]. split; [exact VB|]. apply same_but_normal in EA, EB. destruct EA as (PA & UA & TA). destruct EB as (PB & UB & TB). rewrite PA, PB, UA, UB, TA, TB. split; [reflexivity|]. split; [reflexivity|]. unfold strip_vertex. cbn [v_tu v_tv]. rewrite <- !surjective_pairing. split; reflexivity.
Qed.
Lemma wall_at sin cos fuel r td d o curve vs fs (right : bool) i : 0 <= d < 2 ^ 32 -> get_vertices3 fuel (Ramp_drag_points r) f32_four = Ok curve -> build_ramp_mesh sin cos fuel r td d o = Ok (Some (vs, fs)) -> Ramp_ramp_type r = RampType_Flat -> (i < List.length curve)%nat ->
  (if right then right_wall r else left_wall r) = true -> let side := if right then right_side r true curve i else left_side r true curve i in let k := if right then 1 else 1 + one_if (right_wall r) in
  exists a b, vertex_of vs (k * (2 * zlen curve) + 2 * Z.of_nat i) a /\ vertex_of vs (k * (2 * zlen curve) + 2 * Z.of_nat i + 1) b /\
    position_of a = (fst side, snd side, height_at r curve i) /\ position_of b = (fst side, snd side, add32 (height_at r curve i) (if right then Ramp_right_wall_height_visible r else Ramp_left_wall_height_visible r)) /\
    (v_tu a, v_tv a) = wall_texture r curve i /\ (v_tu b, v_tv b) = wall_texture r curve i.
Proof.
  intros D G H T I W side k. destruct (mesh_of _ _ _ _ _ _ _ _ _ _ D G H) as [_ [(_ & -> & _)|(Q & _)]]; [|contradiction].
  set (height := if right then Ramp_right_wall_height_visible r else Ramp_left_wall_height_visible r). set (sides := if right then right_side r true curve else left_side r true curve).
  assert (SE : side = sides i) by (unfold side, sides; destruct right; reflexivity). destruct (wall_nth r sides height curve i I) as [A B]. rewrite <- SE in A, B.
  assert (M : exists m, Z.of_nat m = k /\ nth_error (flat_parts r td curve) m = Some (wall_vertices r sides height curve)).
  { unfold k, sides, height, flat_parts in *. destruct right; rewrite W; [exists 1%nat; split; reflexivity|]. destruct (right_wall r); [exists 2%nat|exists 1%nat]; split; reflexivity. }
  destruct M as (m & MK & M). destruct (flat_vertex r td curve m (2 * i) _ _ M ltac:(lia) A) as (a & VA & EA). destruct (flat_vertex r td curve m (2 * i + 1) _ _ M ltac:(lia) B) as (b & VB & EB). rewrite MK in VA, VB.
  replace (k * (2 * zlen curve) + Z.of_nat (2 * i)) with (k * (2 * zlen curve) + 2 * Z.of_nat i) in VA by lia. replace (k * (2 * zlen curve) + Z.of_nat (2 * i + 1)) with (k * (2 * zlen curve) + 2 * Z.of_nat i + 1) in VB by lia.
  exists a, b. split; [exact VA|]. split; [exact VB|]. apply same_but_normal in EA, EB. destruct EA as (PA & UA & TA). destruct EB as (PB & UB & TB). rewrite PA, PB, UA, UB, TA, TB. split; [reflexivity|]. split; [reflexivity|]. unfold strip_vertex. cbn [v_tu v_tv]. rewrite <- !surjective_pairing. split; reflexivity.
Qed.

(** The floor: for each vertex of the curve, a vertex on either side of it, at the same distance and height.
    The width goes from the bottom width to the top width. At both ends, the floor is at a right angle to the curve. *)
Theorem C65_floor : forall sin cos fuel r td d o curve vs fs p, 0 <= d < 2 ^ 32 -> get_vertices3 fuel (Ramp_drag_points r) f32_four = Ok curve -> build_ramp_mesh sin cos fuel r td d o = Ok (Some (vs, fs)) ->
  Ramp_ramp_type r = RampType_Flat -> moderate_ramp r -> 0 <= p <= 20 -> at_most p (Ramp_width_bottom r) -> at_most p (Ramp_width_top r) ->
  exists width : nat -> f32,
    (forall i c, nth_error curve i = Some c -> exists nx ny right left, vertex_of vs (2 * Z.of_nat i) right /\ vertex_of vs (2 * Z.of_nat i + 1) left /\
       let half := mul32 (width i) f32_half in
       v_x right = add32 (r3_x c) (mul32 nx half) /\ v_y right = add32 (r3_y c) (mul32 ny half) /\ v_x left = sub32 (r3_x c) (mul32 nx half) /\ v_y left = sub32 (r3_y c) (mul32 ny half) /\ v_z right = v_z left /\
       (forall c', i = 0%nat -> nth_error curve 1 = Some c' -> far_apart (r3_x c) (r3_x c') \/ far_apart (r3_y c) (r3_y c') -> unit_across (r3_x c) (r3_y c) (r3_x c') (r3_y c') nx ny) /\
       (forall c', i = (List.length curve - 1)%nat -> nth_error curve (i - 1) = Some c' -> far_apart (r3_x c') (r3_x c) \/ far_apart (r3_y c') (r3_y c) -> unit_across (r3_x c') (r3_y c') (r3_x c) (r3_y c) nx ny)) /\
    (forall i, (i < List.length curve)%nat -> finite32 (width i)) /\
    exact (width 0%nat) = exact (Ramp_width_bottom r) /\
    (moves curve -> Z.abs (exact (width (List.length curve - 1)%nat) - exact (Ramp_width_top r)) <= 2 ^ (p + 129)) /\
    (forall i j, (i <= j < List.length curve)%nat ->
       (le32 (Ramp_width_bottom r) (Ramp_width_top r) -> le32 (width i) (width j)) /\ (le32 (Ramp_width_top r) (Ramp_width_bottom r) -> le32 (width j) (width i))).
Proof.
  intros sin cos fuel r td d o curve vs fs p D G H T M P AB AT. destruct (mesh_of _ _ _ _ _ _ _ _ _ _ D G H) as [N _]. pose proof (vertices3_bounded _ _ _ _ M G) as F.
  assert (HB : is_habitrail r = false) by (unfold is_habitrail; rewrite T; reflexivity). pose proof (at_most_within p _ ltac:(lia) AB) as WB. pose proof (at_most_within p _ ltac:(lia) AT) as WT.
  assert (FW : forall i, (i < List.length curve)%nat -> fin (width_at r true curve i) /\ val (width_at r true curve i) = height_of_share 0 (val (percentage curve i)) (val (Ramp_width_bottom r)) (val (Ramp_width_top r))).
  { intros i I. apply flat_width; try assumption; apply (within_mono p); (lia || assumption). }
  exists (width_at r true curve). split; [|split; [|split; [|split]]].
  - intros i c C. assert (I : (i < List.length curve)%nat) by (apply nth_error_Some; congruence). destruct (floor_at _ _ _ _ _ _ _ _ _ _ i D G H T I) as (a & b & VA & VB & PA & PB & _).
    assert (EC : vertex_at curve i = c) by (apply nth_error_nth, C). exists (fst (across curve i)), (snd (across curve i)), a, b. split; [exact VA|]. split; [exact VB|].
    unfold position_of, right_side, left_side, add2, sub2, scale2, flat_at in PA, PB. cbn [fst snd] in PA, PB. rewrite EC in PA, PB. injection PA as -> -> ->. injection PB as -> -> ->. repeat (split; [reflexivity|]). split.
    + intros c' -> C' A. assert (EC' : vertex_at curve 1 = c') by (apply nth_error_nth, C'). unfold across. replace (0 =? List.length curve - 1)%nat with false by lia. cbn [Nat.eqb]. unfold following, previous, flat_at. replace (0 <? List.length curve - 1)%nat with true by lia. cbn [Nat.add]. rewrite EC, EC'.
      destruct (vertex_good curve 0 F) as (X1 & Y1 & _). destruct (vertex_good curve 1 F) as (X2 & Y2 & _). rewrite EC in X1, Y1. rewrite EC' in X2, Y2. apply normal_across; assumption.
    + intros c' EI C' A. assert (EC' : vertex_at curve (i - 1) = c') by (apply nth_error_nth, C'). unfold across. rewrite <- EI, Nat.eqb_refl. unfold following, previous, flat_at. rewrite <- ?EI. replace (0 <? i)%nat with true by lia. rewrite EC, EC'.
      destruct (vertex_good curve (i - 1) F) as (X1 & Y1 & _). destruct (vertex_good curve i F) as (X2 & Y2 & _). rewrite EC' in X1, Y1. rewrite EC in X2, Y2. apply normal_across; assumption.
  - intros i I. apply fin_finite, FW, I.
  - destruct (FW 0%nat ltac:(lia)) as [FI VI]. apply same_exact; [exact FI|apply WB|]. rewrite VI, (proj2 (percentage_first curve F)). apply share_first.
  - intros MV. destruct (FW (List.length curve - 1)%nat ltac:(lia)) as [FI VI]. replace (p + 129) with (p - 20 + 149) by lia. apply (exact_error (p - 20) _ (val (Ramp_width_top r))); [lia|exact FI| |symmetry; apply exact_val, WT].
    rewrite VI, (proj2 (percentage_last curve F (moves_length curve F MV))). apply share_last; assumption.
  - intros i j IJ. destruct (FW i ltac:(lia)) as [FI VI]. destruct (FW j ltac:(lia)) as [FJ VJ]. pose proof (percentage_mono curve i j F IJ) as PM. split; intros L; apply (le_val _ _ (proj1 WB) (proj1 WT)) in L || apply (le_val _ _ (proj1 WT) (proj1 WB)) in L; apply le_val; try assumption; rewrite VI, VJ.
    + apply height_mono; [apply Rle_refl|exact PM|exact L].
    + apply height_down; [apply Rle_refl|exact PM|exact L].
Qed.
Print Assumptions C65_floor.

(** ** The walls stand on the floor *)
(** A visible wall stands on its edge of the floor and is as high as its visible height everywhere. With an image on the walls, the texture goes along the wall as
    on the floor; otherwise the walls have no texture. *)
Theorem C65_walls : forall sin cos fuel r td d o curve vs fs (right : bool), 0 <= d < 2 ^ 32 -> get_vertices3 fuel (Ramp_drag_points r) f32_four = Ok curve -> build_ramp_mesh sin cos fuel r td d o = Ok (Some (vs, fs)) ->
  Ramp_ramp_type r = RampType_Flat -> (if right then right_wall r else left_wall r) = true ->
  let height := if right then Ramp_right_wall_height_visible r else Ramp_left_wall_height_visible r in
  let first := (if right then 1 else 1 + one_if (right_wall r)) * (2 * zlen curve) in
  forall i, 0 <= i < zlen curve -> exists edge foot top, vertex_of vs (2 * i + if right then 0 else 1) edge /\ vertex_of vs (first + 2 * i) foot /\ vertex_of vs (first + 2 * i + 1) top /\
    position_of foot = position_of edge /\ position_of top = (v_x edge, v_y edge, add32 (v_z edge) height) /\ v_tu foot = f32_zero /\ v_tu top = f32_zero /\ v_tv foot = v_tv top /\
    (if negb (is_empty (Ramp_image r)) && Ramp_image_walls r then Ramp_image_alignment r <> RampImageAlignment_World -> v_tv foot = v_tv edge else v_tv foot = f32_zero).
Proof.
  intros sin cos fuel r td d o curve vs fs right D G H T W height first i I. set (k := Z.to_nat i). assert (K : (k < List.length curve)%nat) by (unfold zlen in I; lia). assert (EK : Z.of_nat k = i) by lia.
  destruct (floor_at _ _ _ _ _ _ _ _ _ _ k D G H T K) as (a & b & VA & VB & PA & PB & TA & TB). destruct (wall_at _ _ _ _ _ _ _ _ _ _ right k D G H T K W) as (f & t & VF & VT & PF & PT & TF & TT). fold first height in VF, VT, PT. rewrite EK in *.
  assert (WT0 : wall_texture r curve k = (f32_zero, if negb (is_empty (Ramp_image r)) && Ramp_image_walls r then ratio_at curve k else f32_zero)) by (unfold wall_texture; destruct (Ramp_image r); [reflexivity|]; cbn [is_empty negb andb]; destruct (Ramp_image_walls r); reflexivity).
  rewrite WT0 in TF, TT. injection TF as UF TF. injection TT as UT TT.
  assert (FT : forall side p, Ramp_image_alignment r <> RampImageAlignment_World -> is_empty (Ramp_image r) = false -> snd (floor_texture r td side p (ratio_at curve k)) = ratio_at curve k) by (intros side p A E; unfold floor_texture; destruct (Ramp_image r); [discriminate|]; destruct (Ramp_image_alignment r); [contradiction|reflexivity|reflexivity]).
  exists (if right then a else b), f, t. split; [destruct right; [rewrite Z.add_0_r; exact VA|exact VB]|]. split; [exact VF|]. split; [exact VT|]. split; [rewrite PF; destruct right; [rewrite PA|rewrite PB]; reflexivity|].
  split; [rewrite PT; unfold position_of in PA, PB; destruct right; [injection PA as -> -> ->|injection PB as -> -> ->]; reflexivity|]. split; [exact UF|]. split; [exact UT|]. split; [congruence|]. rewrite TF.
  destruct (is_empty (Ramp_image r)) eqn:E; [reflexivity|]. cbn [negb andb]. destruct (Ramp_image_walls r); [|reflexivity]. intros A. apply (f_equal snd) in TA, TB. cbn [snd] in TA, TB. rewrite (FT _ _ A eq_refl) in TA. rewrite (FT _ _ A eq_refl) in TB. destruct right; congruence.
Qed.
Print Assumptions C65_walls.

(** ** Heights *)
(** The floor is as high as the curve above the bottom height at the first vertex, as the curve above the top height at the last one, up to rounding, and never goes down
    between them if the curve does not and the top is not below the bottom. *)
Theorem C65_heights : forall sin cos fuel r td d o curve vs fs p first last, 0 <= d < 2 ^ 32 -> get_vertices3 fuel (Ramp_drag_points r) f32_four = Ok curve -> build_ramp_mesh sin cos fuel r td d o = Ok (Some (vs, fs)) ->
  Ramp_ramp_type r = RampType_Flat -> moderate_ramp r -> 0 <= p <= 20 -> at_most p (Ramp_height_bottom r) -> at_most p (Ramp_height_top r) ->
  nth_error curve 0 = Some first -> nth_error curve (List.length curve - 1) = Some last -> at_most p (r3_z last) ->
  exists height : Z -> f32,
    (forall i, 0 <= i < zlen curve -> finite32 (height i) /\ exists right left, vertex_of vs (2 * i) right /\ vertex_of vs (2 * i + 1) left /\ v_z right = height i /\ v_z left = height i) /\
    exact (height 0) = exact (add32 (r3_z first) (Ramp_height_bottom r)) /\
    (moves curve -> Z.abs (exact (height (zlen curve - 1)) - (exact (r3_z last) + exact (Ramp_height_top r))) <= 2 ^ (p + 129)) /\
    (never_down curve -> le32 (Ramp_height_bottom r) (Ramp_height_top r) -> forall i j, 0 <= i <= j -> j < zlen curve -> le32 (height i) (height j)).
Proof.
  intros sin cos fuel r td d o curve vs fs p first last D G H T M P AB AT C0 CL AL. destruct (mesh_of _ _ _ _ _ _ _ _ _ _ D G H) as [N _]. pose proof (vertices3_bounded _ _ _ _ M G) as F.
  pose proof (at_most_within p _ ltac:(lia) AB) as WB. pose proof (at_most_within p _ ltac:(lia) AT) as WT. pose proof (at_most_within p _ ltac:(lia) AL) as WL.
  assert (WH : within_heights r) by (split; apply (within_mono p); (lia || assumption)). assert (HV : forall i, (i < List.length curve)%nat -> _) by (intros i I; exact (height_val r curve i F WH I)).
  exists (fun i => height_at r curve (Z.to_nat i)). split; [|split; [|split]].
  - intros i I. assert (K : (Z.to_nat i < List.length curve)%nat) by (unfold zlen in I; lia). split; [apply fin_finite, HV, K|]. destruct (floor_at _ _ _ _ _ _ _ _ _ _ _ D G H T K) as (a & b & VA & VB & PA & PB & _).
    rewrite Z2Nat.id in VA, VB by lia. exists a, b. unfold position_of in PA, PB. injection PA as _ _ ZA. injection PB as _ _ ZB. repeat split; assumption || apply VA || apply VB.
  - cbv beta. change (Z.to_nat 0) with 0%nat. destruct (HV 0%nat ltac:(lia)) as [FH VH]. assert (E0 : vertex_at curve 0 = first) by (apply nth_error_nth, C0). destruct (vertex_good curve 0 F) as (_ & _ & WZ). rewrite E0 in *.
    destruct (add_val 54 _ _ ltac:(lia) WZ (within_mono p 54 _ ltac:(lia) WB)) as [[FS _] VS]. apply same_exact; [exact FH|exact FS|]. rewrite VH, (proj2 (percentage_first curve F)), VS. apply height_bottom, val_format.
  - intros MV. replace (Z.to_nat (zlen curve - 1)) with (List.length curve - 1)%nat by (unfold zlen; lia). destruct (HV (List.length curve - 1)%nat ltac:(lia)) as [FH VH]. assert (E0 : vertex_at curve (List.length curve - 1) = last) by (apply nth_error_nth, CL). rewrite E0 in VH.
    replace (p + 129) with (p - 20 + 149) by lia. apply (exact_error (p - 20) _ (val (r3_z last) + val (Ramp_height_top r))%R); [lia|exact FH| |rewrite plus_IZR, Rmult_plus_distr_r, (exact_val _ (proj1 WL)), (exact_val _ (proj1 WT)); reflexivity].
    rewrite VH, (proj2 (percentage_last curve F (moves_length curve F MV))). apply height_top; [exact P|apply WL|apply WB|apply WT].
  - intros ND LE. apply (le_val _ _ (proj1 WB) (proj1 WT)) in LE.
    assert (ZM : forall i j, (i <= j < List.length curve)%nat -> (val (r3_z (vertex_at curve i)) <= val (r3_z (vertex_at curve j)))%R).
    { intros i j [IJ J]. induction IJ as [|j IJ IH]; [apply Rle_refl|]. apply (Rle_trans _ (val (r3_z (vertex_at curve j)))); [apply IH; lia|].
      destruct (nth_error curve j) as [a|] eqn:A; [|apply nth_error_None in A; lia]. destruct (nth_error curve (S j)) as [b|] eqn:B; [|apply nth_error_None in B; lia].
      destruct (vertex_good curve j F) as (_ & _ & [FA _]). destruct (vertex_good curve (S j) F) as (_ & _ & [FB _]). specialize (ND j a b A B). unfold vertex_at in *. rewrite (nth_error_nth _ _ _ A) in *. rewrite (nth_error_nth _ _ _ B) in *. apply le_val; assumption. }
    intros i j IJ J. unfold zlen in J. destruct (HV (Z.to_nat i) ltac:(lia)) as [FI VI]. destruct (HV (Z.to_nat j) ltac:(lia)) as [FJ VJ]. apply le_val; [exact FI|exact FJ|]. rewrite VI, VJ. apply height_mono; [apply ZM; lia|apply percentage_mono; [exact F|lia]|exact LE].
Qed.
Print Assumptions C65_heights.

(** ** Texture coordinates *)
(** An image laid along the ramp goes from one on the right to zero on the left, and from one at the first vertex down to zero at the last one. *)
Theorem C65_texture : forall sin cos fuel r td d o curve vs fs, 0 <= d < 2 ^ 32 -> get_vertices3 fuel (Ramp_drag_points r) f32_four = Ok curve -> build_ramp_mesh sin cos fuel r td d o = Ok (Some (vs, fs)) ->
  Ramp_ramp_type r = RampType_Flat -> moderate_ramp r -> Ramp_image r <> [] -> Ramp_image_alignment r <> RampImageAlignment_World ->
  exists along : Z -> f32,
    (forall i, 0 <= i < zlen curve -> unit_interval (along i) /\ exists right left, vertex_of vs (2 * i) right /\ vertex_of vs (2 * i + 1) left /\ v_tu right = f32_one /\ v_tv right = along i /\ v_tu left = f32_zero /\ v_tv left = along i) /\
    exact (along 0) = exact f32_one /\ (moves curve -> exact (along (zlen curve - 1)) = 0) /\ (forall i j, 0 <= i <= j -> j < zlen curve -> le32 (along j) (along i)).
Proof.
  intros sin cos fuel r td d o curve vs fs D G H T M NI NW. destruct (mesh_of _ _ _ _ _ _ _ _ _ _ D G H) as [N _]. pose proof (vertices3_bounded _ _ _ _ M G) as F. destruct one_val as [FO VO]. destruct zero_val as [FZ VZ].
  assert (RV : forall i, (i < List.length curve)%nat -> _) by (intros i I; exact (ratio_val curve i F I)). exists (fun i => ratio_at curve (Z.to_nat i)). split; [|split; [|split]].
  - intros i I. assert (K : (Z.to_nat i < List.length curve)%nat) by (unfold zlen in I; lia). destruct (RV _ K) as (FR & _ & R0 & R1). split; [split; apply le_val; rewrite ?VO, ?VZ; assumption|].
    destruct (floor_at _ _ _ _ _ _ _ _ _ _ _ D G H T K) as (a & b & VA & VB & _ & _ & TA & TB). rewrite Z2Nat.id in VA, VB by lia. exists a, b.
    assert (FT : forall side p, floor_texture r td side p (ratio_at curve (Z.to_nat i)) = (side, ratio_at curve (Z.to_nat i))) by (intros side p; unfold floor_texture; destruct (Ramp_image r); [contradiction|]; destruct (Ramp_image_alignment r); [contradiction|reflexivity|reflexivity]).
    rewrite FT in TA, TB. injection TA as -> ->. injection TB as -> ->. split; [exact VA|]. split; [exact VB|]. repeat split.
  - cbv beta. change (Z.to_nat 0) with 0%nat. destruct (RV 0%nat ltac:(lia)) as (FR & VR & _). apply same_exact; [exact FR|exact FO|]. rewrite VR, VO, (proj2 (percentage_first curve F)). apply ratio_ends.
  - intros MV. replace (Z.to_nat (zlen curve - 1)) with (List.length curve - 1)%nat by (unfold zlen; lia). destruct (RV (List.length curve - 1)%nat ltac:(lia)) as (FR & VR & _). rewrite <- (proj2 (zero_exact f32_zero eq_refl)). apply same_exact; [exact FR|exact FZ|].
    rewrite VR, VZ, (proj2 (percentage_last curve F (moves_length curve F MV))). apply ratio_ends.
  - intros i j IJ J. unfold zlen in J. destruct (RV (Z.to_nat i) ltac:(lia)) as (FI & VI & _). destruct (RV (Z.to_nat j) ltac:(lia)) as (FJ & VJ & _). apply le_val; [exact FJ|exact FI|]. rewrite VI, VJ. apply ratio_mono, percentage_mono; [exact F|lia].
Qed.
Print Assumptions C65_texture.
(** An image laid over the table stays between zero and one where the ramp is on a table whose left and upper edges are at zero. *)
Theorem C65_world : forall sin cos fuel r td d o curve vs fs k v, 0 <= d < 2 ^ 32 -> get_vertices3 fuel (Ramp_drag_points r) f32_four = Ok curve -> build_ramp_mesh sin cos fuel r td d o = Ok (Some (vs, fs)) ->
  Ramp_ramp_type r = RampType_Flat -> Forall moderate [td_left td; td_top td; td_right td; td_bottom td] -> exact (td_left td) = 0 -> exact (td_top td) = 0 -> 2 ^ 49 <= exact (td_right td) -> 2 ^ 49 <= exact (td_bottom td) ->
  0 <= k < 2 * zlen curve -> vertex_of vs k v -> finite32 (v_x v) -> finite32 (v_y v) -> 0 <= exact (v_x v) <= exact (td_right td) -> 0 <= exact (v_y v) <= exact (td_bottom td) ->
  unit_interval (v_tu v) /\ unit_interval (v_tv v) \/ Ramp_image r <> [] /\ Ramp_image_alignment r <> RampImageAlignment_World.
Proof.
  intros sin cos fuel r td d o curve vs fs k v D G H T MT L0 T0 WD HT K VK FX FY OX OY. set (i := Z.to_nat (k / 2)). assert (I : (i < List.length curve)%nat) by (unfold i; pose proof (Z.div_lt_upper_bound k 2 (zlen curve) ltac:(lia) ltac:(lia)); pose proof (Z.div_pos k 2); unfold zlen in *; lia).
  destruct (floor_at _ _ _ _ _ _ _ _ _ _ i D G H T I) as (a & b & VA & VB & PA & PB & TA & TB).
  assert (E : exists side p, position_of v = (fst p, snd p, height_at r curve i) /\ (v_tu v, v_tv v) = floor_texture r td side p (ratio_at curve i)).
  { assert (KI : Z.of_nat i = k / 2) by (unfold i; apply Z2Nat.id, Z.div_pos; lia). rewrite KI in *. pose proof (Z.div_mod k 2 ltac:(lia)) as DM. pose proof (Z.mod_pos_bound k 2 ltac:(lia)) as MB. assert (CS : k mod 2 = 0 \/ k mod 2 = 1) by lia. destruct CS as [CS|CS]; rewrite CS in DM.
    - replace (2 * (k / 2)) with k in VA by lia. rewrite (vertex_unique _ _ _ _ VK VA). eauto.
    - replace (2 * (k / 2) + 1) with k in VB by lia. rewrite (vertex_unique _ _ _ _ VK VB). eauto. }
  destruct E as (side & p & PV & TV). unfold floor_texture in TV. destruct one_val as [FO VO]. destruct zero_val as [FZ VZ].
  assert (UZ : unit_interval f32_zero) by (split; vm_compute; reflexivity). destruct (Ramp_image r) as [|ch im]; [injection TV as -> ->; left; split; exact UZ|]. destruct (Ramp_image_alignment r); [|right; split; discriminate|right; split; discriminate]. left.
  unfold position_of in PV. injection PV as PX PY _. injection TV as -> ->. rewrite <- PX, <- PY. inversion MT as [|? ? M1 MT1]; subst. inversion MT1 as [|? ? M2 MT2]; subst. inversion MT2 as [|? ? M3 MT3]; subst. inversion MT3 as [|? ? M4 _]; subst. apply moderate_within in M1, M2, M3, M4.
  split; apply table_share; (assumption || apply finite_fin; assumption).
Qed.
Print Assumptions C65_world.

(** ** Wires *)
Lemma wire_at sin cos fuel r td d o curve vs fs k j l u : 0 <= d < 2 ^ 32 -> get_vertices3 fuel (Ramp_drag_points r) f32_four = Ok curve -> build_ramp_mesh sin cos fuel r td d o = Ok (Some (vs, fs)) -> Ramp_ramp_type r <> RampType_Flat ->
  let segments := ring_segments d (negb o) in nth_error (wire_lists sin cos r curve segments) k = Some l -> nth_error l j = Some u -> vertex_of vs (Z.of_nat k * (zlen curve * segments) + Z.of_nat j) u.
Proof.
  intros D G H T segs K J. destruct (mesh_of _ _ _ _ _ _ _ _ _ _ D G H) as [N [(Q & _)|(_ & -> & _)]]; [contradiction|]. fold segs. destruct (wire_lists_len sin cos r curve segs) as [FL _]. pose proof (segments_least d (negb o) D) as S6. fold segs in S6.
  assert (L : List.length l = (List.length curve * Z.to_nat segs)%nat) by (exact (proj1 (Forall_forall _ _) FL l (nth_error_In _ _ K))). assert (JL : (j < List.length l)%nat) by (apply nth_error_Some; congruence).
  pose proof (concat_nth _ _ k j FL ltac:(lia)) as C. rewrite K, J in C. split; [unfold zlen; nia|]. exists (wrap u). split; [|reflexivity]. apply (map_nth_error wrap). rewrite <- C. f_equal. unfold zlen. nia.
Qed.
(** A wire above another one has the same rings: each vertex differs from that of the wire below in its height only. The lower wire is three units above the ramp, and the
    upper one half the vertical distance. *)
Theorem C65_wires : forall sin cos fuel r td d o curve vs fs segments, 0 <= d < 2 ^ 32 -> get_vertices3 fuel (Ramp_drag_points r) f32_four = Ok curve -> build_ramp_mesh sin cos fuel r td d o = Ok (Some (vs, fs)) ->
  Ramp_ramp_type r <> RampType_Flat -> zlen vs = wire_count (Ramp_ramp_type r) * (zlen curve * segments) ->
  forall lower upper, In (lower, upper) (above (Ramp_ramp_type r)) -> forall j, 0 <= j < zlen curve * segments ->
  exists a b h, vertex_of vs (lower * (zlen curve * segments) + j) a /\ vertex_of vs (upper * (zlen curve * segments) + j) b /\
    v_z a = add32 h f32_3 /\ v_z b = add32 h (mul32 (Ramp_wire_distance_y r) f32_half) /\
    [v_x a; v_y a; v_nx a; v_ny a; v_nz a; v_tu a; v_tv a] = [v_x b; v_y b; v_nx b; v_ny b; v_nz b; v_tu b; v_tv b].
Proof.
  intros sin cos fuel r td d o curve vs fs segments D G H T LS lower upper AB j J. pose proof (segments_least d (negb o) D) as S6. destruct (C65_mesh _ _ _ _ _ _ _ _ _ _ D G H) as (_ & _ & _ & _ & LW). destruct (mesh_of _ _ _ _ _ _ _ _ _ _ D G H) as [N [(Q & _)|(_ & EV & _)]]; [contradiction|].
  assert (ES : segments = ring_segments d (negb o)).
  { destruct (wire_lists_len sin cos r curve (ring_segments d (negb o))) as [FL FC]. rewrite EV in LS. unfold zlen at 1 in LS. rewrite map_length, (concat_len _ _ FL), <- FC in LS. assert (W1 : 1 <= zlen (wire_lists sin cos r curve (ring_segments d (negb o)))) by (rewrite FC; destruct (Ramp_ramp_type r); cbn; (lia || contradiction)). clear -LS W1 N S6. unfold zlen in *. nia. }
  set (segs := ring_segments d (negb o)) in *. rewrite ES in *.
  assert (X : exists points l m, l = map (raised f32_3) (create_wire sin cos r (List.length curve) segs points (map (height_at r curve) (seq 0 (List.length curve)))) /\ m = map (raised (mul32 (Ramp_wire_distance_y r) f32_half)) (create_wire sin cos r (List.length curve) segs points (map (height_at r curve) (seq 0 (List.length curve)))) /\
    nth_error (wire_lists sin cos r curve segs) (Z.to_nat lower) = Some l /\ nth_error (wire_lists sin cos r curve segs) (Z.to_nat upper) = Some m /\ 0 <= lower /\ 0 <= upper).
  { unfold wire_lists, wires. cbv zeta. destruct (Ramp_ramp_type r); cbn [above In] in AB; repeat match goal with A : _ \/ _ |- _ => destruct A as [A|A] | A : False |- _ => destruct A end; injection AB as <- <-; eexists _, _, _; (split; [reflexivity|]); (split; [reflexivity|]); (split; [reflexivity|]); (split; [reflexivity|]); lia. }
  destruct X as (points & l & m & -> & -> & NL & NU & L0 & U0). set (w := create_wire _ _ _ _ _ _ _) in *.
  destruct (nth_error w (Z.to_nat j)) as [u|] eqn:U; [|apply nth_error_None in U; unfold w in U; rewrite create_wire_len in U; unfold zlen in J; nia].
  pose proof (wire_at _ _ _ _ _ _ _ _ _ _ _ _ _ _ D G H T NL (map_nth_error (raised f32_3) _ _ U)) as VA. pose proof (wire_at _ _ _ _ _ _ _ _ _ _ _ _ _ _ D G H T NU (map_nth_error (raised (mul32 (Ramp_wire_distance_y r) f32_half)) _ _ U)) as VB.
  fold segs in VA, VB. rewrite !Z2Nat.id in VA, VB by lia. exists (raised f32_3 u), (raised (mul32 (Ramp_wire_distance_y r) f32_half) u), (v_z u). split; [exact VA|]. split; [exact VB|]. repeat split.
Qed.
Print Assumptions C65_wires.
(** The texture coordinates of the wires are between zero and one, and all vertices of a ring have the same first one. *)
Theorem C65_wire_texture : forall sin cos fuel r td d o curve vs fs segments, 0 <= d < 2 ^ 32 -> get_vertices3 fuel (Ramp_drag_points r) f32_four = Ok curve -> build_ramp_mesh sin cos fuel r td d o = Ok (Some (vs, fs)) ->
  Ramp_ramp_type r <> RampType_Flat -> zlen vs = wire_count (Ramp_ramp_type r) * (zlen curve * segments) -> zlen vs <= 2 ^ 24 ->
  (forall v, In v vs -> unit_interval (v_tu (w_vertex v)) /\ unit_interval (v_tv (w_vertex v))) /\
  (forall k l v w, 0 <= k -> 0 <= l -> k / segments = l / segments -> vertex_of vs k v -> vertex_of vs l w -> v_tu v = v_tu w).
Proof.
  intros sin cos fuel r td d o curve vs fs segments D G H T LS B24. pose proof (segments_least d (negb o) D) as S6. destruct (mesh_of _ _ _ _ _ _ _ _ _ _ D G H) as [N [(Q & _)|(_ & EV & _)]]; [contradiction|]. destruct (wire_lists_len sin cos r curve (ring_segments d (negb o))) as [FL FC].
  assert (W1 : 1 <= zlen (wire_lists sin cos r curve (ring_segments d (negb o)))) by (rewrite FC; destruct (Ramp_ramp_type r); cbn; (lia || contradiction)).
  assert (ES : segments = ring_segments d (negb o)) by (rewrite EV in LS; unfold zlen at 1 in LS; rewrite map_length, (concat_len _ _ FL), <- FC in LS; clear -LS W1 N S6; unfold zlen in *; nia). set (segs := ring_segments d (negb o)) in *. rewrite ES in *.
  set (n := List.length curve) in *.
  assert (BN : zlen curve <= 2 ^ 24 /\ segs <= 2 ^ 24) by (rewrite LS, <- FC in B24; clear -B24 W1 N S6; unfold zlen in *; fold n in B24 |- *; nia).
  assert (X : forall k w, nth_error vs k = Some w -> v_tu (w_vertex w) = mul32 (int32 (Z.of_nat k / segs mod Z.of_nat n)) (div32 f32_one (int32 (Z.of_nat n))) /\ unit_interval (v_tu (w_vertex w)) /\ unit_interval (v_tv (w_vertex w))).
  { intros k w K. rewrite EV in K. apply map_nth_error_inv in K. destruct K as (x & K & ->). change (w_vertex (wrap x)) with x.
    assert (SZ : (0 < n * Z.to_nat segs)%nat) by nia. pose proof (Nat.div_mod k (n * Z.to_nat segs) ltac:(lia)) as DM. pose proof (Nat.mod_upper_bound k (n * Z.to_nat segs) ltac:(lia)) as MB. set (q := (k / (n * Z.to_nat segs))%nat) in *. set (j := (k mod (n * Z.to_nat segs))%nat) in *.
    pose proof (concat_nth _ _ q j FL MB) as C. fold n in C. replace (q * (n * Z.to_nat segs) + j)%nat with k in C by lia. rewrite K in C. destruct (nth_error (wire_lists sin cos r curve segs) q) as [l|] eqn:L; [|discriminate].
    assert (R : exists points heights u, nth_error (wire_rings sin cos points heights n segs (Ramp_wire_diameter r) (seq 0 n) vec_zero) j = Some u /\ v_tu x = v_tu u /\ v_tv x = v_tv u).
    { apply nth_error_In in L. revert L. unfold wire_lists, wires. cbv zeta. fold n. destruct (Ramp_ramp_type r); intros L; cbn [In] in L; repeat match goal with A : _ \/ _ |- _ => destruct A as [A|A] | A : False |- _ => destruct A end; subst l; symmetry in C; try (apply map_nth_error_inv in C; destruct C as (u & C & ->)); eexists _, _, _; (split; [exact C|]); split; reflexivity. }
    destruct R as (points & heights & u & R & -> & ->). destruct (rings_of sin cos points heights n segs (Ramp_wire_diameter r) ltac:(lia) _ _ _ _ _ R) as (nn & RI & ->).
    assert (EI : Z.of_nat k / segs mod Z.of_nat n = Z.of_nat j / segs).
    { assert (EK : Z.of_nat k = Z.of_nat j + (Z.of_nat q * Z.of_nat n) * segs) by (rewrite DM; rewrite Nat2Z.inj_add, !Nat2Z.inj_mul, Z2Nat.id by lia; ring). rewrite EK, Z.div_add by lia. rewrite Z.mod_add by lia. apply Z.mod_small. exact RI. }
    rewrite EI. pose proof (Z.mod_pos_bound (Z.of_nat j) segs ltac:(lia)) as JM. pose proof (texture_units (Z.of_nat n) segs (Z.of_nat j / segs) (Z.of_nat j mod segs) ltac:(unfold zlen in BN; fold n in BN; lia) ltac:(lia) RI JM) as TU. cbv zeta in TU.
    unfold wire_vertex. destruct (point_at _ _) as [mx my]. cbn [v_tu v_tv Nat.add]. rewrite Z2Nat.id by lia. split; [reflexivity|exact TU]. }
  split.
  - intros v I. apply In_nth_error in I. destruct I as (k & K). apply (X _ _ K).
  - intros k l v w K0 L0 KL (_ & a & A & <-) (_ & b & B & <-). rewrite (proj1 (X _ _ A)), (proj1 (X _ _ B)), !Z2Nat.id by lia. rewrite KL. reflexivity.
Qed.
Print Assumptions C65_wire_texture.

(** ** Which side is outside *)
Lemma copy_edge parts size fs k a b : 0 <= k < parts -> In (a, b) (edges fs) -> In (k * size + a, k * size + b) (edges (copies parts size fs)).
Proof.
  intros K E. unfold copies, edges in *. apply in_flat_map in E. destruct E as (f & F & E). apply in_flat_map. exists (shifted (k * size) f). split.
  - apply in_flat_map. exists k. split; [apply steps_in, K|]. apply in_map, F.
  - unfold shifted. cbn [f_0 f_1 f_2]. cbn [In] in E |- *. destruct E as [E|[E|[E|[]]]]; injection E as <- <-; [left|right; left|right; right; left]; f_equal; lia.
Qed.
Lemma strip_rails n i : 0 <= i < n - 1 -> In (2 * i + 2, 2 * i) (edges (strip_faces n)) /\ In (2 * i + 1, 2 * i + 3) (edges (strip_faces n)).
Proof.
  intros I. rewrite strip_edges. split; apply strip_edges_in; exists i; (split; [exact I|]); unfold strip_edge; cbn [In]; auto 10.
Qed.
(** The triangles of the floor and of the left wall go along their common edge in opposite directions, so they have the same side outside. Those of the right wall and
    the floor go along theirs in the same direction: the outside of the right wall is the inside of the floor. *)
Theorem C65_outside : forall sin cos fuel r td d o curve vs fs, 0 <= d < 2 ^ 32 -> get_vertices3 fuel (Ramp_drag_points r) f32_four = Ok curve -> build_ramp_mesh sin cos fuel r td d o = Ok (Some (vs, fs)) ->
  Ramp_ramp_type r = RampType_Flat -> let n := zlen curve in forall i, 0 <= i < n - 1 ->
  In (2 * i + 2, 2 * i) (edges fs) /\ In (2 * i + 1, 2 * (i + 1) + 1) (edges fs) /\
  (right_wall r = true -> In (2 * n + 2 * (i + 1), 2 * n + 2 * i) (edges fs)) /\
  (left_wall r = true -> let first := (1 + one_if (right_wall r)) * (2 * n) in In (first + 2 * (i + 1), first + 2 * i) (edges fs)).
Proof.
  intros sin cos fuel r td d o curve vs fs D G H T n i I. destruct (mesh_of _ _ _ _ _ _ _ _ _ _ D G H) as [N [(_ & _ & ->)|(Q & _)]]; [|contradiction]. fold n. destruct (strip_rails n i I) as [R L].
  assert (P : 1 <= part_count r) by (unfold part_count, one_if; destruct (right_wall r), (left_wall r); lia).
  assert (E : forall k a b x y, 0 <= k < part_count r -> In (a, b) (edges (strip_faces n)) -> x = k * (2 * n) + a -> y = k * (2 * n) + b -> In (x, y) (edges (copies (part_count r) (2 * n) (strip_faces n)))) by (intros k a b x y K F -> ->; apply copy_edge; assumption).
  split; [apply (E 0 _ _ _ _ ltac:(lia) R); lia|]. split; [apply (E 0 _ _ _ _ ltac:(lia) L); lia|]. split.
  - intros W. apply (E 1 (2 * i + 2) (2 * i)); [unfold part_count, one_if; rewrite W; destruct (left_wall r); lia|exact R|lia|lia].
  - intros W first. apply (E (1 + one_if (right_wall r)) (2 * i + 2) (2 * i)); [unfold part_count, one_if; rewrite W; destruct (right_wall r); lia|exact R|unfold first; lia|unfold first; lia].
Qed.
Print Assumptions C65_outside.

(** ** Cases *)
Definition ramp_points : list DragPoint := [auto_point 100 900 false; auto_point 100 500 false; auto_point 400 100 false].
Definition flat_ramp : Ramp := set_Ramp_drag_points ramp_points (set_Ramp_image (lit "wood") (set_Ramp_image_alignment RampImageAlignment_Wrap (set_Ramp_image_walls true
  (set_Ramp_left_wall_height_visible (int32 30) (set_Ramp_right_wall_height_visible (int32 40) Ramp_default))))).
Definition wire_ramp : Ramp := set_Ramp_ramp_type RampType_FourWire (set_Ramp_drag_points ramp_points Ramp_default).
Definition ramp_curve (r : Ramp) : list RenderVertex3 := match get_vertices3 151 (Ramp_drag_points r) f32_four with Ok l => l | Fail _ => [] end.
Definition ramp_table : TableDimensions := mkTableDimensions f32_zero f32_zero (int32 952) (int32 2162).
Definition ramp_mesh (r : Ramp) (td : TableDimensions) : list wrapper * list face := match build_ramp_mesh sixth_sin sixth_cos 151 r td 0 true with Ok (Some m) => m | _ => ([], []) end.
Lemma moderate3_cases dps : forallb (fun p => forallb (fun v => (Z.abs (exact v) <=? 2 ^ 20 * 2 ^ 149) && match f32_value v with S754_finite _ _ _ | S754_zero _ => true | _ => false end) (coordinates p)) dps = true ->
  Forall (fun p => Forall moderate (coordinates p)) dps.
Proof.
  intros H. apply Forall_forall. intros p P. apply Forall_forall. intros v V. rewrite forallb_forall in H. specialize (H p P). rewrite forallb_forall in H. specialize (H v V). apply andb_true_iff in H. destruct H as [H1 H2].
  split; [unfold finite32; destruct (f32_value v); try discriminate; exact I|lia].
Qed.
Lemma apart_case dps i p q : 0 <= i < zlen dps - 1 -> neighbour false dps i = Some p -> neighbour false dps (i + 1) = Some q -> coincide3 p q = false -> ~ one_place3 dps.
Proof. intros I P Q C O. rewrite (O i p q I P Q) in C. discriminate. Qed.
Lemma some_mesh (m : option (list wrapper * list face)) : m <> None -> exists vs fs, m = Some (vs, fs).
Proof. destruct m as [[vs fs]|]; [eauto|congruence]. Qed.
Lemma ramp_case t td : let r := set_Ramp_ramp_type t flat_ramp in moderate_ramp r /\ ~ no_width r /\ zlen (ramp_curve r) = 3 /\ get_vertices3 151 (Ramp_drag_points r) f32_four = Ok (ramp_curve r) /\ exists vs fs, build_ramp_mesh sixth_sin sixth_cos 151 r td 0 true = Ok (Some (vs, fs)).
Proof.
  intros r. assert (M : moderate_ramp r) by (apply moderate3_cases; vm_compute; reflexivity). assert (W : ~ no_width r) by (intros X; apply no_width_is in X; vm_compute in X; discriminate). split; [exact M|]. split; [exact W|]. split; [vm_compute; reflexivity|]. split; [vm_compute; reflexivity|].
  destruct (C65_total sixth_sin sixth_cos r td 0 true M ltac:(lia)) as (m & E & NM). specialize (E 151%nat (le_n _)). destruct (some_mesh m) as (vs & fs & ->); [|eauto]. intros X. apply NM in X. destruct X as [X|[X|X]]; [contradiction|vm_compute in X; discriminate|].
  revert X. apply (apart_case _ 0 (auto_point 100 900 false) (auto_point 100 500 false)); vm_compute; (reflexivity || split; (reflexivity || discriminate)).
Qed.
Example C65_total_case : moderate_ramp flat_ramp /\ ~ no_width flat_ramp /\ moderate_ramp wire_ramp.
Proof. split; [apply (ramp_case RampType_Flat ramp_table)|]. split; [apply (ramp_case RampType_Flat ramp_table)|apply moderate3_cases; vm_compute; reflexivity]. Qed.
Example C65_none_case : no_width (set_Ramp_width_bottom f32_zero (set_Ramp_width_top f32_zero wire_ramp)) /\ zlen (ramp_curve (set_Ramp_drag_points [auto_point 9 9 true] flat_ramp)) = 0.
Proof. split; [repeat constructor|vm_compute; reflexivity]. Qed.
Example C65_mesh_case : forall t, exists vs fs, let r := set_Ramp_ramp_type t flat_ramp in get_vertices3 151 (Ramp_drag_points r) f32_four = Ok (ramp_curve r) /\ zlen (ramp_curve r) = 3 /\ build_ramp_mesh sixth_sin sixth_cos 151 r ramp_table 0 true = Ok (Some (vs, fs)).
Proof. intros t. destruct (ramp_case t ramp_table) as (_ & _ & L & G & vs & fs & B). exists vs, fs. split; [exact G|]. split; [exact L|exact B]. Qed.
Example C65_floor_case : let r := flat_ramp in Ramp_ramp_type r = RampType_Flat /\ moderate_ramp r /\ at_most 7 (Ramp_width_bottom r) /\ at_most 7 (Ramp_width_top r) /\ right_wall r = true /\ left_wall r = true /\ Ramp_image r <> [] /\
  moves (ramp_curve r) /\ le32 (Ramp_width_top r) (Ramp_width_bottom r).
Proof.
  assert (A : forall x, match f32_value x with S754_finite _ _ _ | S754_zero _ => Z.abs (exact x) <=? 2 ^ 7 * 2 ^ 149 | _ => false end = true -> at_most 7 x) by (intros x X; unfold at_most, finite32; destruct (f32_value x); try discriminate; (split; [exact I|lia])).
  split; [reflexivity|]. split; [apply moderate3_cases; vm_compute; reflexivity|]. split; [apply A; vm_compute; reflexivity|]. split; [apply A; vm_compute; reflexivity|]. split; [vm_compute; reflexivity|]. split; [vm_compute; reflexivity|]. split; [discriminate|]. split; [|vm_compute; reflexivity].
  eexists 0%nat, _, _. split; [vm_compute; reflexivity|]. split; [vm_compute; reflexivity|]. right. vm_compute. discriminate.
Qed.
Fixpoint goes_up (l : list RenderVertex3) : bool := match l with a :: ((b :: _) as t) => SFleb (f32_value (r3_z a)) (f32_value (r3_z b)) && goes_up t | _ => true end.
Lemma up_cases l : goes_up l = true -> never_down l.
Proof.
  intros H i. revert l H. induction i as [|i IH]; intros l H a b A B; (destruct l as [|u [|w l]]; [discriminate| |]); try (destruct i; discriminate); try discriminate; cbn [goes_up] in H; apply andb_true_iff in H; destruct H as [H1 H2].
  - injection A as ->. injection B as ->. exact H1.
  - exact (IH (w :: l) H2 a b A B).
Qed.
Example C65_heights_case : let r := flat_ramp in at_most 7 (Ramp_height_bottom r) /\ at_most 7 (Ramp_height_top r) /\ never_down (ramp_curve r) /\ le32 (Ramp_height_bottom r) (Ramp_height_top r) /\
  exists first last, nth_error (ramp_curve r) 0 = Some first /\ nth_error (ramp_curve r) (List.length (ramp_curve r) - 1) = Some last /\ at_most 7 (r3_z last).
Proof.
  assert (A : forall x, match f32_value x with S754_finite _ _ _ | S754_zero _ => Z.abs (exact x) <=? 2 ^ 7 * 2 ^ 149 | _ => false end = true -> at_most 7 x) by (intros x X; unfold at_most, finite32; destruct (f32_value x); try discriminate; (split; [exact I|lia])).
  split; [apply A; vm_compute; reflexivity|]. split; [apply A; vm_compute; reflexivity|]. split.
  { apply up_cases. vm_compute. reflexivity. }
  split; [vm_compute; reflexivity|]. eexists _, _. split; [vm_compute; reflexivity|]. split; [vm_compute; reflexivity|]. apply A. vm_compute. reflexivity.
Qed.
Definition on_ramp_table (v : wrapper) : bool := let x := v_x (w_vertex v) in let y := v_y (w_vertex v) in
  match f32_value x, f32_value y with S754_finite _ _ _, S754_finite _ _ _ => (0 <=? exact x) && (exact x <=? exact (td_right ramp_table)) && (0 <=? exact y) && (exact y <=? exact (td_bottom ramp_table)) | _, _ => false end.
Example C65_world_case : let r := set_Ramp_image_alignment RampImageAlignment_World flat_ramp in Forall moderate [td_left ramp_table; td_top ramp_table; td_right ramp_table; td_bottom ramp_table] /\ 2 ^ 49 <= exact (td_right ramp_table) /\ 2 ^ 49 <= exact (td_bottom ramp_table) /\
  forallb on_ramp_table (firstn 6 (fst (ramp_mesh r ramp_table))) = true /\ zlen (firstn 6 (fst (ramp_mesh r ramp_table))) = 6.
Proof.
  split; [repeat constructor; vm_compute; discriminate|]. split; [vm_compute; discriminate|]. split; [vm_compute; discriminate|]. vm_compute. split; reflexivity.
Qed.
Example C65_wires_case : exists vs fs, let r := set_Ramp_ramp_type RampType_FourWire flat_ramp in build_ramp_mesh sixth_sin sixth_cos 151 r ramp_table 0 true = Ok (Some (vs, fs)) /\ zlen vs = wire_count (Ramp_ramp_type r) * (zlen (ramp_curve r) * 6) /\ In (1, 3) (above (Ramp_ramp_type r)) /\ zlen vs <= 2 ^ 24.
Proof.
  destruct (ramp_case RampType_FourWire ramp_table) as (_ & _ & L & G & vs & fs & B). exists vs, fs. split; [exact B|]. destruct (mesh_of sixth_sin sixth_cos 151 _ _ 0 true _ _ _ ltac:(lia) G B) as [_ [(Q & _)|(_ & -> & _)]]; [discriminate|]. destruct (wire_lists_len sixth_sin sixth_cos (set_Ramp_ramp_type RampType_FourWire flat_ramp) (ramp_curve (set_Ramp_ramp_type RampType_FourWire flat_ramp)) 6) as [FL FC].
  assert (X : zlen (map wrap (List.concat (wire_lists sixth_sin sixth_cos (set_Ramp_ramp_type RampType_FourWire flat_ramp) (ramp_curve (set_Ramp_ramp_type RampType_FourWire flat_ramp)) 6))) = 4 * (3 * 6)).
  { unfold zlen at 1. rewrite map_length, (concat_len _ _ FL). unfold zlen in FC. change (wire_count (Ramp_ramp_type (set_Ramp_ramp_type RampType_FourWire flat_ramp))) with 4 in FC. change (Z.to_nat 6) with 6%nat. rewrite !Nat2Z.inj_mul, FC. unfold zlen in L. rewrite L. reflexivity. }
  change (ring_segments 0 (negb true)) with 6. rewrite X. rewrite L. split; [reflexivity|]. split; [right; left; reflexivity|lia].
Qed.

(** ** What does not hold *)
(** A wire ramp does not use the widths, but there is no mesh of it if they are zero. *)
Theorem C65_wire_width_refuted : ~ (forall sin cos r td d o, moderate_ramp r -> Ramp_ramp_type r <> RampType_Flat -> 2 <= zlen (Ramp_drag_points r) -> ~ one_place3 (Ramp_drag_points r) -> 0 <= d < 2 ^ 32 -> build_ramp_mesh sin cos 151 r td d o <> Ok None).
Proof.
  intros H. set (r := set_Ramp_width_bottom f32_zero (set_Ramp_width_top f32_zero wire_ramp)). apply (H sixth_sin sixth_cos r ramp_table 0 true); [apply moderate3_cases; vm_compute; reflexivity|discriminate|vm_compute; discriminate| |lia|apply C65_none; [lia|left; repeat constructor]].
  apply (apart_case _ 0 (auto_point 100 900 false) (auto_point 100 500 false)); vm_compute; (reflexivity || split; (reflexivity || discriminate)).
Qed.
Print Assumptions C65_wire_width_refuted.
(** An image laid over the table is not moved by where the table begins: on a table whose left edge is not at zero, its coordinates leave the range from zero to one. *)
Definition beyond (m : res (option (list wrapper * list face))) (low high : f32) : bool :=
  match m with Ok (Some (w :: _, _)) => let x := v_x (w_vertex w) in (exact low <=? exact x) && (exact x <=? exact high) && lt32 f32_one (v_tu (w_vertex w)) | _ => false end.
Lemma beyond_is m low high : beyond m low high = true -> exists w vs fs, m = Ok (Some (w :: vs, fs)) /\ exact low <= exact (v_x (w_vertex w)) <= exact high /\ lt32 f32_one (v_tu (w_vertex w)) = true.
Proof.
  destruct m as [[[[|w vs] fs]|]|]; try discriminate. unfold beyond. cbv zeta. intros B. apply andb_true_iff in B. destruct B as [B L]. apply andb_true_iff in B. destruct B as [B1 B2]. exists w, vs, fs. split; [reflexivity|]. split; [lia|exact L].
Qed.
Definition shifted_ramp : Ramp := set_Ramp_image_alignment RampImageAlignment_World (set_Ramp_drag_points [auto_point 1400 900 false; auto_point 1400 500 false] flat_ramp).
Definition shifted_table : TableDimensions := mkTableDimensions (int32 1000) f32_zero (int32 2000) (int32 2000).
Theorem C65_world_refuted : ~ (forall sin cos fuel r td d o vs fs v, moderate_ramp r -> Ramp_ramp_type r = RampType_Flat -> 0 <= d < 2 ^ 32 -> build_ramp_mesh sin cos fuel r td d o = Ok (Some (vs, fs)) ->
  Ramp_image_alignment r = RampImageAlignment_World -> Forall moderate [td_left td; td_top td; td_right td; td_bottom td] -> In v vs -> exact (td_left td) <= exact (v_x (w_vertex v)) <= exact (td_right td) -> unit_interval (v_tu (w_vertex v))).
Proof.
  intros H. assert (B : beyond (build_ramp_mesh sixth_sin sixth_cos 151 shifted_ramp shifted_table 0 true) (td_left shifted_table) (td_right shifted_table) = true) by (vm_compute; reflexivity).
  apply beyond_is in B. destruct B as (w & vs & fs & E & B & L).
  assert (M : moderate_ramp shifted_ramp) by (apply moderate3_cases; vm_compute; reflexivity). assert (MT : Forall moderate [td_left shifted_table; td_top shifted_table; td_right shifted_table; td_bottom shifted_table]) by (repeat constructor; vm_compute; discriminate).
  pose proof (H sixth_sin sixth_cos 151%nat shifted_ramp shifted_table 0 true (w :: vs) fs w M eq_refl ltac:(lia) E eq_refl MT (or_introl eq_refl) B) as [_ U]. exact (above_not_below _ _ L U).
Qed.
Print Assumptions C65_world_refuted.
(** The upper wire of a pair is not always above the lower one: the lower one is raised by three units, the upper one by half their vertical distance. *)
Definition lower_upper (m : res (option (list wrapper * list face))) (lower upper : nat) : bool :=
  match m with Ok (Some (vs, _)) => match nth_error vs lower, nth_error vs upper with Some a, Some b => lt32 (v_z (w_vertex b)) (v_z (w_vertex a)) | _, _ => false end | _ => false end.
Lemma lower_upper_is m count i j : match m with Ok (Some (vs, _)) => zlen vs =? count | _ => false end && lower_upper m i j = true ->
  exists vs fs a b, m = Ok (Some (vs, fs)) /\ zlen vs = count /\ vertex_of vs (Z.of_nat i) a /\ vertex_of vs (Z.of_nat j) b /\ lt32 (v_z b) (v_z a) = true.
Proof.
  destruct m as [[[vs fs]|]|]; try discriminate. unfold lower_upper. intros H. apply andb_true_iff in H. destruct H as [L H]. destruct (nth_error vs i) as [a|] eqn:A; [|discriminate]. destruct (nth_error vs j) as [b|] eqn:B; [|discriminate].
  exists vs, fs, (w_vertex a), (w_vertex b). split; [reflexivity|]. split; [lia|]. split; [split; [lia|exists a; rewrite Nat2Z.id; split; [exact A|reflexivity]]|]. split; [split; [lia|exists b; rewrite Nat2Z.id; split; [exact B|reflexivity]]|]. exact H.
Qed.
Definition low_ramp : Ramp := set_Ramp_wire_distance_y (int32 4) (set_Ramp_drag_points [auto_point 100 900 false; auto_point 100 500 false] wire_ramp).
Theorem C65_above_refuted : exists r vs fs a b, moderate_ramp r /\ Ramp_ramp_type r = RampType_FourWire /\ above_zero (Ramp_wire_distance_y r) /\ build_ramp_mesh sixth_sin sixth_cos 151 r ramp_table 0 true = Ok (Some (vs, fs)) /\ zlen vs = 4 * (2 * 6) /\
  vertex_of vs 0 a /\ vertex_of vs (2 * (2 * 6)) b /\ lt32 (v_z b) (v_z a) = true.
Proof.
  assert (B : match build_ramp_mesh sixth_sin sixth_cos 151 low_ramp ramp_table 0 true with Ok (Some (vs, _)) => zlen vs =? 48 | _ => false end && lower_upper (build_ramp_mesh sixth_sin sixth_cos 151 low_ramp ramp_table 0 true) 0 24 = true) by (vm_compute; reflexivity).
  apply lower_upper_is in B. destruct B as (vs & fs & a & b & E & L & A & B & Q).
  exists low_ramp, vs, fs, a, b. split; [apply moderate3_cases; vm_compute; reflexivity|]. split; [reflexivity|]. split; [vm_compute; reflexivity|]. split; [exact E|]. split; [exact L|]. split; [exact A|]. split; [exact B|exact Q].
Qed.
Print Assumptions C65_above_refuted.

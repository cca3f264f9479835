(** Lemmas about the triangles of ramps. *)
From Coq Require Import Floats.SpecFloat ZifyBool Permutation.
From Verif Require Import Base Text Json Image Sound Quantize ColorText Cfb JsonFloat Mesh SpecMesh Browser Common Enums ItemRamp Builtin SpecBuiltin BuiltinFacts VpxFacts Polygon SpecPolygon PolygonFacts Smooth SpecSmooth FileSystem Walls SpecWalls WallsFacts RubberMesh SpecRubber RubberFacts PropertiesWalls PropertiesRubber Ramps SpecRamps.

(** ** Parts *)
Lemma closed_perm {A} (l m : list (A * A)) : Permutation l m -> closed_surface l -> closed_surface m.
Proof.
  intros P [ND SW]. split; [exact (Permutation_NoDup P ND)|]. intros a b I. apply (Permutation_in _ P), SW, (Permutation_in _ (Permutation_sym P)), I.
Qed.
Lemma closed_inj {A B} (f : A -> B) l : (forall x y, f x = f y -> x = y) -> closed_surface (map (between f) l) -> closed_surface l.
Proof.
  intros J [ND SW]. split; [exact (NoDup_map_inv _ _ ND)|]. intros a b I. specialize (SW _ _ (in_map (between f) _ _ I)). apply in_map_iff in SW. destruct SW as ([c e] & Q & K).
  unfold between in Q. cbn [fst snd] in Q. injection Q as Q1 Q2. apply J in Q1, Q2. subst. exact K.
Qed.
Lemma closed_on {A B} (f : A -> B) l : (forall x y, f x = f y -> x = y) -> closed_surface l -> closed_surface (map (between f) l).
Proof.
  intros J [ND SW]. split.
  - apply FinFun.Injective_map_NoDup; [|exact ND]. intros [a b] [c d] E. unfold between in E. cbn [fst snd] in E. injection E as E1 E2. apply J in E1, E2. congruence.
  - intros a b I. apply in_map_iff in I. destruct I as ([c d] & E & I). unfold between in E. cbn [fst snd] in E. injection E as <- <-. apply in_map_iff. exists (d, c). split; [reflexivity|apply SW, I].
Qed.
Lemma each_part_closed parts es : closed_surface es -> closed_surface (each_part parts es).
Proof.
  intros C. unfold each_part. split.
  - apply NoDup_flat; [apply steps_nodup|intros k _; apply closed_on; [congruence|exact C]|]. intros x y e _ _ E1 E2. apply in_map_iff in E1, E2. destruct E1 as ([a b] & <- & _). destruct E2 as ([c d] & E & _). unfold between in E. cbn [fst snd] in E. congruence.
  - intros a b I. apply in_flat_map in I. destruct I as (k & K & I). apply in_flat_map. exists k. split; [exact K|]. apply (proj2 (closed_on (pair k) es ltac:(congruence) C)), I.
Qed.
Lemma flat_perm {A B} (f g : A -> list B) l : Permutation (flat_map (fun x => f x ++ g x) l) (flat_map f l ++ flat_map g l).
Proof.
  induction l as [|x l IH]; [constructor|]. cbn [flat_map]. rewrite IH. rewrite <- !app_assoc. apply Permutation_app_head. rewrite !app_assoc. apply Permutation_app_tail, Permutation_app_comm.
Qed.
Lemma each_part_app parts es bs : Permutation (each_part parts (es ++ bs)) (each_part parts es ++ each_part parts bs).
Proof. unfold each_part. erewrite flat_ext; [apply flat_perm|]. intros k _. cbv beta. apply map_app. Qed.
Definition copies (parts size : Z) (fs : list face) : list face := flat_map (fun k => map (shifted (k * size)) fs) (steps parts).
Lemma copies_edges parts size fs : Forall (face_within 0 (size - 1)) fs -> in_parts size (edges (copies parts size fs)) = each_part parts (edges fs).
Proof.
  intros F. unfold in_parts, copies, each_part. rewrite edges_flat_map, map_flat. apply flat_ext. intros k _. induction F as [|f fs W F IH]; [reflexivity|]. destruct f as [a b c]. unfold face_within in W. cbn [f_0 f_1 f_2] in W.
  cbn [map]. change (edges (shifted (k * size) (mkFace a b c) :: map (shifted (k * size)) fs)) with ([(a + k * size, b + k * size); (b + k * size, c + k * size); (c + k * size, a + k * size)] ++ edges (map (shifted (k * size)) fs)).
  change (edges (mkFace a b c :: fs)) with ([(a, b); (b, c); (c, a)] ++ edges fs). rewrite !map_app, IH. f_equal. unfold between, in_part. cbn [map fst snd].
  assert (Q : forall x, 0 <= x <= size - 1 -> (x + k * size) / size = k /\ (x + k * size) mod size = x).
  { intros x X. rewrite Z.div_add, Z.mod_add, Z.div_small, Z.mod_small by lia. lia. }
  destruct (Q a ltac:(lia)) as [-> ->]. destruct (Q b ltac:(lia)) as [-> ->]. destruct (Q c ltac:(lia)) as [-> ->]. reflexivity.
Qed.
Lemma copies_closed parts size fs bs : Forall (face_within 0 (size - 1)) fs -> closed_surface (edges fs ++ bs) -> closed_surface (in_parts size (edges (copies parts size fs)) ++ each_part parts bs).
Proof. intros F C. rewrite copies_edges by exact F. eapply closed_perm; [apply each_part_app|]. apply each_part_closed, C. Qed.
Lemma copies_len parts size fs : 0 <= parts -> zlen (copies parts size fs) = parts * zlen fs.
Proof.
  intros P. unfold zlen, copies. rewrite (flat_map_constant_length _ _ (List.length fs)); [unfold steps; rewrite map_length, seq_length; lia|]. intros x _. apply map_length.
Qed.
Lemma copies_within parts size fs : 0 <= size -> Forall (face_within 0 (size - 1)) fs -> Forall (face_within 0 (parts * size - 1)) (copies parts size fs).
Proof.
  intros S0 F. apply Forall_forall. intros f H. apply in_flat_map in H. destruct H as (k & K & H). apply steps_in in K. apply in_map_iff in H. destruct H as (g & <- & G). rewrite Forall_forall in F. specialize (F g G).
  unfold face_within, shifted in *. cbn [f_0 f_1 f_2]. nia.
Qed.
Lemma copies_distinct parts size fs : Forall distinct_corners fs -> Forall distinct_corners (copies parts size fs).
Proof.
  intros F. apply Forall_forall. intros f H. apply in_flat_map in H. destruct H as (k & K & H). apply in_map_iff in H. destruct H as (g & <- & G). rewrite Forall_forall in F. specialize (F g G).
  unfold distinct_corners, shifted in *. cbn [f_0 f_1 f_2]. lia.
Qed.

(** ** Strips *)
Lemma strip_in n : Forall (face_within 0 (2 * n - 1)) (strip_faces n).
Proof. apply Forall_forall. intros f H. apply in_flat_map in H. destruct H as (i & I & H). apply steps_in in I. destruct H as [<-|[<-|[]]]; unfold face_within; cbn [f_0 f_1 f_2]; lia. Qed.
Lemma strip_distinct n : Forall distinct_corners (strip_faces n).
Proof. apply Forall_forall. intros f H. apply in_flat_map in H. destruct H as (i & I & H). apply steps_in in I. destruct H as [<-|[<-|[]]]; unfold distinct_corners; cbn [f_0 f_1 f_2]; lia. Qed.
Lemma strip_len n : 1 <= n -> zlen (strip_faces n) = 2 * (n - 1).
Proof. intros N. unfold zlen, strip_faces. rewrite (flat_map_constant_length _ _ 2%nat); [unfold steps; rewrite map_length, seq_length; lia|reflexivity]. Qed.
Definition strip_edge (i : Z) : list (Z * Z) := [(2 * i, 2 * i + 1); (2 * i + 1, 2 * i + 3); (2 * i + 3, 2 * i); (2 * i, 2 * i + 3); (2 * i + 3, 2 * i + 2); (2 * i + 2, 2 * i)].
Lemma strip_edges n : edges (strip_faces n) = flat_map strip_edge (steps (n - 1)).
Proof. unfold strip_faces. rewrite edges_flat_map. apply flat_ext. reflexivity. Qed.
Lemma strip_outline_in n a b : In (a, b) (strip_outline n) <-> (exists i, 0 <= i < n - 1 /\ a = 2 * i /\ b = 2 * i + 2) \/ (a = 2 * n - 2 /\ b = 2 * n - 1) \/ (exists i, 0 <= i < n - 1 /\ a = 2 * i + 3 /\ b = 2 * i + 1) \/ (a = 1 /\ b = 0).
Proof.
  unfold strip_outline. rewrite !in_app_iff, !in_map_iff. cbn [In]. split.
  - intros [(i & E & I)|[[E|[]]|[(i & E & I)|[E|[]]]]]; try apply steps_in in I; injection E as <- <-; [left; exists i; lia|right; left; lia|right; right; left; exists i; lia|right; right; right; lia].
  - intros [(i & I & -> & ->)|[[-> ->]|[(i & I & -> & ->)|[-> ->]]]].
    + left. exists i. split; [reflexivity|apply steps_in, I].
    + right. left. left. reflexivity.
    + right. right. left. exists i. split; [reflexivity|apply steps_in, I].
    + right. right. right. left. reflexivity.
Qed.
Lemma strip_edges_in n a b : In (a, b) (flat_map strip_edge (steps (n - 1))) <-> exists i, 0 <= i < n - 1 /\ In (a, b) (strip_edge i).
Proof. rewrite in_flat_map. split; intros (i & I & E); exists i; (split; [apply steps_in; exact I|exact E]). Qed.
Lemma strip_closed n : 2 <= n -> closed_surface (edges (strip_faces n) ++ strip_outline n).
Proof.
  intros N. rewrite strip_edges. split.
  - apply NoDup_app_disjoint.
    + apply NoDup_flat; [apply steps_nodup| |].
      * intros i I. apply steps_in in I. unfold strip_edge. repeat (constructor; [cbn; intros C; repeat destruct C as [C|C]; try contradiction; injection C; lia|]); constructor.
      * intros x y [a b] _ _ E1 E2. unfold strip_edge in *. cbn [In] in *. repeat (destruct E1 as [E1|E1]); try contradiction; injection E1 as <- <-; repeat (destruct E2 as [E2|E2]); try contradiction; injection E2; intros; lia.
    + unfold strip_outline. apply NoDup_app_disjoint; [apply FinFun.Injective_map_NoDup; [intros x y E; injection E; lia|apply steps_nodup]| |].
      * cbn [app]. constructor.
        -- rewrite in_app_iff, in_map_iff. intros [(i & E & I)|[E|[]]]; injection E; intros; lia.
        -- apply NoDup_app_disjoint; [apply FinFun.Injective_map_NoDup; [intros x y E; injection E; lia|apply steps_nodup]|constructor; [intros []|constructor]|]. intros e E1 [<-|[]]. apply in_map_iff in E1. destruct E1 as (i & E & I). apply steps_in in I. injection E; intros; lia.
      * intros e E1 E2. apply in_map_iff in E1. destruct E1 as (i & <- & I). apply steps_in in I. cbn [app] in E2. destruct E2 as [E|E2]; [injection E; lia|]. apply in_app_iff in E2. destruct E2 as [E2|[E|[]]]; [apply in_map_iff in E2; destruct E2 as (j & E & _)|]; injection E; intros; lia.
    + intros [a b] E1 E2. apply strip_edges_in in E1. apply strip_outline_in in E2. destruct E1 as (i & I & E1). unfold strip_edge in E1. cbn [In] in E1.
      repeat (destruct E1 as [E1|E1]); try contradiction; injection E1 as <- <-; destruct E2 as [(j & J & A & B)|[[A B]|[(j & J & A & B)|[A B]]]]; lia.
  - intros a b I. rewrite in_app_iff in *. rewrite strip_edges_in, strip_outline_in in *. destruct I as [(i & I & E)|[(i & I & -> & ->)|[[-> ->]|[(i & I & -> & ->)|[-> ->]]]]].
    + unfold strip_edge in E. cbn [In] in E. repeat (destruct E as [E|E]); try contradiction; injection E as <- <-.
      * destruct (Z.eq_dec i 0) as [->|J]; [right; right; right; right; lia|]. left. exists (i - 1). split; [lia|]. unfold strip_edge. replace (2 * (i - 1) + 3) with (2 * i + 1) by lia. replace (2 * (i - 1) + 2) with (2 * i) by lia. cbn. auto 8.
      * right. right. right. left. exists i. lia.
      * left. exists i. split; [exact I|]. cbn. auto 8.
      * left. exists i. split; [exact I|]. cbn. auto 8.
      * destruct (Z.eq_dec i (n - 2)) as [->|J]; [right; right; left; lia|]. left. exists (i + 1). split; [lia|]. unfold strip_edge. replace (2 * (i + 1)) with (2 * i + 2) by lia. replace (2 * i + 2 + 1) with (2 * i + 3) by lia. cbn. auto.
      * right. left. exists i. lia.
    + left. exists i. split; [exact I|]. cbn. auto 8.
    + left. exists (n - 2). split; [lia|]. unfold strip_edge. replace (2 * (n - 2) + 3) with (2 * n - 1) by lia. replace (2 * (n - 2) + 2) with (2 * n - 2) by lia. cbn. auto 8.
    + left. exists i. split; [exact I|]. cbn. auto 8.
    + left. exists 0. split; [lia|]. cbn. auto.
Qed.

(** ** Tubes *)
Lemma ring_injective segs x y : 0 < segs -> on_ring segs x = on_ring segs y -> x = y.
Proof. intros S0 XY. unfold on_ring in XY. injection XY as X1 X2. rewrite (Z.div_mod x segs), (Z.div_mod y segs) by lia. rewrite X1, X2. reflexivity. Qed.
Lemma tube_open_faces rings segs : 2 <= rings -> 3 <= segs -> closed_surface (edges (tube_faces rings segs (rings - 1)) ++ tube_ends rings segs).
Proof.
  intros R S. apply (closed_inj (on_ring segs)); [intros x y; apply ring_injective; lia|]. rewrite map_app. change (map (between (on_ring segs)) (edges (tube_faces rings segs (rings - 1)))) with (on_rings segs (edges (tube_faces rings segs (rings - 1)))).
  rewrite (tube_edges rings segs (rings - 1) false eq_refl). replace (map (between (on_ring segs)) (tube_ends rings segs)) with (map swap (round segs 0) ++ round segs (rings - 1)); [apply tube_open; (lia || reflexivity)|].
  unfold tube_ends, round. rewrite map_app, !map_map. f_equal; apply map_ext_in; intros j J; apply steps_in in J; unfold swap, between; cbn [fst snd].
  - rewrite !on_ring_first by (destruct (j =? segs - 1) eqn:?; lia). reflexivity.
  - rewrite !on_ring_at by (destruct (j =? segs - 1) eqn:?; lia). reflexivity.
Qed.

(** ** Looking up vertices *)
Lemma concat_nth {A} (m : nat) : forall (ls : list (list A)) k j, Forall (fun l => List.length l = m) ls -> (j < m)%nat -> nth_error (List.concat ls) (k * m + j) = match nth_error ls k with Some l => nth_error l j | None => None end.
Proof.
  induction ls as [|l ls IH]; intros k j F J; [destruct (k * m + j)%nat, k; reflexivity|]. inversion F as [|? ? L F']; subst. cbn [List.concat]. destruct k as [|k]; cbn [nth_error].
  - rewrite nth_error_app1 by (cbn; exact J). reflexivity.
  - rewrite nth_error_app2 by lia. replace (S k * List.length l + j - List.length l)%nat with (k * List.length l + j)%nat by lia. apply IH; assumption.
Qed.
Lemma concat_len {A} (m : nat) (ls : list (list A)) : Forall (fun l => List.length l = m) ls -> List.length (List.concat ls) = (List.length ls * m)%nat.
Proof. induction 1 as [|l ls L F IH]; [reflexivity|]. cbn [List.concat List.length]. rewrite app_length, IH, L. lia. Qed.
Lemma pairs_nth {A} (f g : nat -> A) n i : (i < n)%nat -> nth_error (flat_map (fun i => [f i; g i]) (seq 0 n)) (2 * i) = Some (f i) /\ nth_error (flat_map (fun i => [f i; g i]) (seq 0 n)) (2 * i + 1) = Some (g i).
Proof.
  intros I. rewrite flat_map_concat_map. assert (F : Forall (fun l => List.length l = 2%nat) (map (fun i => [f i; g i]) (seq 0 n))) by (apply Forall_forall; intros l L; apply in_map_iff in L; destruct L as (x & <- & _); reflexivity).
  assert (E : nth_error (map (fun i => [f i; g i]) (seq 0 n)) i = Some [f i; g i]).
  { apply (map_nth_error (fun i => [f i; g i])). rewrite (nth_error_nth' _ 0%nat) by (rewrite seq_length; exact I). rewrite seq_nth by exact I. reflexivity. }
  split.
  - pose proof (concat_nth 2 _ i 0 F ltac:(lia)) as C. rewrite E in C. replace (i * 2 + 0)%nat with (2 * i)%nat in C by lia. exact C.
  - pose proof (concat_nth 2 _ i 1 F ltac:(lia)) as C. rewrite E in C. replace (i * 2 + 1)%nat with (2 * i + 1)%nat in C by lia. exact C.
Qed.
Lemma pairs_len {A} (f g : nat -> A) n : List.length (flat_map (fun i => [f i; g i]) (seq 0 n)) = (2 * n)%nat.
Proof. rewrite (flat_map_constant_length _ _ 2%nat); [rewrite seq_length; lia|reflexivity]. Qed.

(** ** The mesh as a whole *)
Definition flat_parts (r : Ramp) (td : TableDimensions) (curve : list RenderVertex3) : list (list Vtx) :=
  [floor_vertices r td curve] ++ (if right_wall r then [wall_vertices r (right_side r true curve) (Ramp_right_wall_height_visible r) curve] else []) ++
  (if left_wall r then [wall_vertices r (left_side r true curve) (Ramp_left_wall_height_visible r) curve] else []).
Lemma flat_parts_len r td curve : Forall (fun l => List.length l = (2 * List.length curve)%nat) (flat_parts r td curve) /\ zlen (flat_parts r td curve) = part_count r.
Proof.
  unfold flat_parts, part_count. split; [|destruct (right_wall r), (left_wall r); reflexivity].
  assert (W : forall side h, List.length (wall_vertices r side h curve) = (2 * List.length curve)%nat) by (intros side h; unfold wall_vertices; apply pairs_len).
  apply Forall_app. split; [repeat constructor; unfold floor_vertices; cbv zeta; apply pairs_len|]. apply Forall_app. split; [destruct (right_wall r)|destruct (left_wall r)]; repeat constructor; apply W.
Qed.
Lemma normals_length vs fs : List.length (compute_normals vs fs) = List.length vs.
Proof. pose proof (normals_len vs fs) as H. unfold zlen in H. lia. Qed.
Lemma shifted_zero fs : map (shifted 0) fs = fs.
Proof. rewrite <- (map_id fs) at 2. apply map_ext. intros [a b c]. unfold shifted. cbn [f_0 f_1 f_2]. rewrite !Z.add_0_r. reflexivity. Qed.
Lemma build_flat r td curve : (2 <= List.length curve)%nat ->
  build_flat_ramp_mesh r curve td = Some (map wrap (List.concat (map (fun p => compute_normals p (strip_faces (zlen curve))) (flat_parts r td curve))), copies (part_count r) (2 * zlen curve) (strip_faces (zlen curve))).
Proof.
  intros N. unfold build_flat_ramp_mesh. replace (List.length curve <? 2)%nat with false by lia. cbv zeta. unfold flat_parts, copies, part_count. fold (right_wall r) (left_wall r).
  assert (LW : forall side h, List.length (wall_vertices r side h curve) = (2 * List.length curve)%nat) by (intros side h; unfold wall_vertices; apply pairs_len).
  assert (LF : List.length (floor_vertices r td curve) = (2 * List.length curve)%nat) by (unfold floor_vertices; cbv zeta; apply pairs_len).
  revert LF. generalize (floor_vertices r td curve). intros fl LF. pose proof (LW (right_side r true curve) (Ramp_right_wall_height_visible r)) as LR. revert LR. generalize (wall_vertices r (right_side r true curve) (Ramp_right_wall_height_visible r) curve). intros rw LR.
  pose proof (LW (left_side r true curve) (Ramp_left_wall_height_visible r)) as LL. revert LL. generalize (wall_vertices r (left_side r true curve) (Ramp_left_wall_height_visible r) curve). intros lw LL. clear LW.
  assert (SE : exists f fs, strip_faces (zlen curve) = f :: fs).
  { pose proof (strip_len (zlen curve) ltac:(unfold zlen; lia)) as L. destruct (strip_faces (zlen curve)) as [|f fs]; [unfold zlen in L; cbn [List.length] in L; lia|eauto]. }
  assert (FE : exists v vs, compute_normals fl (strip_faces (zlen curve)) = v :: vs).
  { pose proof (normals_length fl (strip_faces (zlen curve))) as L. destruct (compute_normals fl (strip_faces (zlen curve))) as [|v vs]; [cbn in L; lia|eauto]. }
  destruct FE as (v & vs & FE). destruct SE as (f & fs & SE). unfold append_part. cbn [fst snd app].
  pose proof (normals_length fl (strip_faces (zlen curve))) as NF. pose proof (normals_length rw (strip_faces (zlen curve))) as NR. rewrite LF in NF. rewrite LR in NR.
  replace (map (fun p => compute_normals p (strip_faces (zlen curve))) (fl :: (if right_wall r then [rw] else []) ++ (if left_wall r then [lw] else [])))
    with (compute_normals fl (strip_faces (zlen curve)) :: (if right_wall r then [compute_normals rw (strip_faces (zlen curve))] else []) ++ (if left_wall r then [compute_normals lw (strip_faces (zlen curve))] else [])) by (destruct (right_wall r), (left_wall r); reflexivity).
  revert FE NF NR. generalize (compute_normals fl (strip_faces (zlen curve))) (compute_normals rw (strip_faces (zlen curve))) (compute_normals lw (strip_faces (zlen curve))). intros A B C FE NF NR.
  revert SE. generalize (strip_faces (zlen curve)). intros F SE. change (zlen (@nil Vtx)) with 0. rewrite shifted_zero. cbn [app].
  assert (K1 : zlen A = 1 * (2 * zlen curve)) by (unfold zlen; lia). assert (K2 : zlen (A ++ B) = 2 * (2 * zlen curve)) by (unfold zlen; rewrite app_length; lia). rewrite K1, ?K2.
  assert (S1 : steps 1 = [0]) by reflexivity. assert (S2 : steps 2 = [0; 1]) by reflexivity. assert (S3 : steps 3 = [0; 1; 2]) by reflexivity.
  destruct (right_wall r), (left_wall r); cbn [andb app map one_if List.concat]; change (1 + 1 + 1) with 3; change (1 + 1 + 0) with 2; change (1 + 0 + 1) with 2; change (1 + 0 + 0) with 1; rewrite ?S1, ?S2, ?S3; cbn [flat_map];
    rewrite ?Z.mul_0_l, ?shifted_zero, ?app_nil_r, ?app_assoc, ?K2; rewrite SE, FE; reflexivity.
Qed.

Section Wires.
Variable sin cos : f32 -> f32.
Definition wire_lists (r : Ramp) (curve : list RenderVertex3) (segments : Z) : list (list Vtx) := match wires sin cos r curve segments with Some ws => ws | None => [] end.
Lemma wire_rings_len points heights rings segs d : forall is b, List.length (wire_rings sin cos points heights rings segs d is b) = (List.length is * Z.to_nat segs)%nat.
Proof. induction is as [|i is IH]; intros b; [reflexivity|]. cbn [wire_rings]. destruct (wire_frame _ _ _ _ _) as [nn bb]. rewrite app_length, map_length, IH. unfold steps. rewrite map_length, seq_length. cbn [List.length]. lia. Qed.
Lemma create_wire_len r rings segs points heights : List.length (create_wire sin cos r rings segs points heights) = (rings * Z.to_nat segs)%nat.
Proof. unfold create_wire. rewrite wire_rings_len, seq_length. reflexivity. Qed.
Lemma wire_lists_len r curve segs : Forall (fun l => List.length l = (List.length curve * Z.to_nat segs)%nat) (wire_lists r curve segs) /\ zlen (wire_lists r curve segs) = wire_count (Ramp_ramp_type r).
Proof. unfold wire_lists, wires. cbv zeta. destruct (Ramp_ramp_type r); (split; [repeat constructor; rewrite ?map_length; apply create_wire_len|reflexivity]). Qed.
Lemma build_wire r curve d o : (2 <= List.length curve)%nat -> Ramp_ramp_type r <> RampType_Flat -> let segs := ring_segments d (negb o) in 1 <= segs ->
  build_wire_ramp_mesh sin cos r curve d o = Some (map wrap (List.concat (wire_lists r curve segs)), copies (wire_count (Ramp_ramp_type r)) (zlen curve * segs) (tube_faces (zlen curve) segs (zlen curve - 1))).
Proof.
  intros N T segs S. unfold build_wire_ramp_mesh. replace (List.length curve <? 2)%nat with false by lia. cbv zeta. fold segs.
  destruct (wire_lists_len r curve segs) as [F L]. pose proof (concat_len _ _ F) as LC. pose proof (copies_len (wire_count (Ramp_ramp_type r)) (zlen curve * segs) (tube_faces (zlen curve) segs (zlen curve - 1)) ltac:(destruct (Ramp_ramp_type r); cbn; lia)) as LF.
  rewrite tube_face_count in LF by (unfold zlen; lia). assert (W : 1 <= wire_count (Ramp_ramp_type r)) by (destruct (Ramp_ramp_type r); cbn; (lia || contradiction)).
  assert (NE1 : exists v vs, List.concat (wire_lists r curve segs) = v :: vs) by (destruct (List.concat (wire_lists r curve segs)) as [|v vs]; [unfold zlen in L; cbn [List.length] in LC; nia|eauto]).
  assert (NE2 : exists f fs, copies (wire_count (Ramp_ramp_type r)) (zlen curve * segs) (tube_faces (zlen curve) segs (zlen curve - 1)) = f :: fs).
  { destruct (copies _ _ _) as [|f fs]; [|eauto]. change (zlen (@nil face)) with 0 in LF. unfold zlen in LF. nia. }
  assert (E : wires sin cos r curve segs = Some (wire_lists r curve segs)) by (unfold wire_lists, wires; cbv zeta; destruct (Ramp_ramp_type r); (reflexivity || contradiction)).
  rewrite E. change (Z.of_nat (List.length curve)) with (zlen curve). rewrite L. fold (tube_faces (zlen curve) segs (zlen curve - 1)). fold (copies (wire_count (Ramp_ramp_type r)) (zlen curve * segs) (tube_faces (zlen curve) segs (zlen curve - 1))).
  destruct NE1 as (v & vs & ->). destruct NE2 as (f & fs & ->). reflexivity.
Qed.
Lemma rings_of points heights rings segs d : 0 < segs -> forall m a b k v, nth_error (wire_rings sin cos points heights rings segs d (seq a m) b) k = Some v ->
  exists n, 0 <= Z.of_nat k / segs < Z.of_nat m /\ v = wire_vertex sin cos points heights rings segs d n (a + Z.to_nat (Z.of_nat k / segs)) (Z.of_nat k mod segs).
Proof.
  intros S. induction m as [|m IH]; intros a b k v H; [destruct k; discriminate|]. cbn [seq wire_rings] in H. destruct (wire_frame _ _ _ _ _) as [n b'].
  assert (L : List.length (map (wire_vertex sin cos points heights rings segs d n a) (steps segs)) = Z.to_nat segs) by (unfold steps; rewrite !map_length, seq_length; reflexivity).
  apply app_cases in H. rewrite L in H. destruct H as [[K H]|[K H]].
  - exists n. rewrite Z.div_small, Z.mod_small by lia. split; [lia|]. cbn [Z.to_nat]. rewrite Nat.add_0_r. unfold steps in H. rewrite map_map in H. apply map_nth_error_inv in H. destruct H as (x & X & ->). apply nth_seq0 in X. destruct X as [-> _]. reflexivity.
  - apply IH in H. destruct H as (n' & I & E). exists n'. rewrite Nat2Z.inj_sub in * by lia. rewrite Z2Nat.id in * by lia.
    replace ((Z.of_nat k - segs) / segs) with (Z.of_nat k / segs - 1) in * by (replace (Z.of_nat k - segs) with (Z.of_nat k + (-1) * segs) by lia; rewrite Z.div_add by lia; lia).
    replace ((Z.of_nat k - segs) mod segs) with (Z.of_nat k mod segs) in * by (replace (Z.of_nat k - segs) with (Z.of_nat k + (-1) * segs) by lia; rewrite Z.mod_add by lia; reflexivity).
    split; [lia|]. rewrite E. f_equal. lia.
Qed.
End Wires.

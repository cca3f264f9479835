(** C59: triangles of polygons.

    The code is in Polygon.v; what the property means is in SpecPolygon.v. *)
From Coq Require Import Floats.SpecFloat ZifyBool Permutation.
From Verif Require Import Base Text Image Sound Quantize ColorText JsonFloat Mesh SpecMesh Browser SpecBrowser Builtin SpecBuiltin BuiltinFacts Polygon SpecPolygon PolygonFacts.

(** The two ways triangles are found: for the tops of walls, and for lights and flashers *)
Definition triangulators (t : list point -> res (list face)) : Prop := t = triangulate_wall \/ t = triangulate_flasher.

Lemma crosses_ok points same outside a c p1 p3 : forall es, Forall (fun e => (fst e < List.length points)%nat /\ (snd e < List.length points)%nat) es ->
  exists x, crosses points same outside a c p1 p3 es = Ok x.
Proof.
  induction es as [|[i j] es IH]; intros F; [eexists; reflexivity|]. inversion F as [|? ? [I J] F']. subst. cbn [crosses fst snd] in *.
  destruct (nth_error points i) as [v1|] eqn:E1; [|apply nth_error_None in E1; lia]. destruct (nth_error points j) as [v2|] eqn:E2; [|apply nth_error_None in E2; lia].
  destruct (_ || _); [apply IH, F'|]. destruct (outside p1 p3 v1 v2); [apply IH, F'|]. destruct (lines_intersect p1 p3 v1 v2); [eexists; reflexivity|apply IH, F'].
Qed.
Lemma advance_ok points same outside poly : Forall (fun i => (i < List.length points)%nat) poly ->
  forall a b c pre post, In a poly -> In b poly -> In c poly -> In pre poly -> In post poly -> exists x, advance_point points same outside poly a b c pre post = Ok x.
Proof.
  intros F a b c pre post A B C D E. rewrite Forall_forall in F. unfold advance_point.
  assert (G : forall i, In i poly -> exists p, nth_error points i = Some p).
  { intros i I. destruct (nth_error points i) as [p|] eqn:N; [eauto|]. apply nth_error_None in N. specialize (F i I). lia. }
  destruct (G a A) as (p1 & ->). destruct (G b B) as (p2 & ->). destruct (G c C) as (p3 & ->). destruct (G pre D) as (q1 & ->). destruct (G post E) as (q2 & ->).
  destruct (lt32 _ _); [eexists; reflexivity|]. destruct (_ && _); [eexists; reflexivity|]. destruct (_ && _); [eexists; reflexivity|].
  destruct (crosses_ok points same outside a c p1 p3 (cycle poly)) as (x & ->); [|eexists; reflexivity].
  apply Forall_forall. intros [i j] I. apply cycle_in in I. cbn. split; apply F; tauto.
Qed.
Lemma clip_ok points same outside : forall count poly, Forall (fun i => (i < List.length points)%nat) poly -> List.length poly = (count + 2)%nat -> NoDup poly ->
  exists fs, clip (advance_point points same outside) count poly = Ok fs.
Proof.
  induction count as [|count IH]; intros poly F L N; [eexists; reflexivity|]. cbn [clip].
  destruct (find_ear_ok (advance_point points same outside) poly ltac:(lia) (advance_ok points same outside poly F) (List.length poly) 0 ltac:(lia)) as (r & E).
  rewrite E. cbn [rbind]. pose proof (find_ear_spec _ poly _ _ _ E ltac:(lia)) as SP. destruct r as [[k [[a b] c]]|]; [|eexists; reflexivity].
  destruct SP as (l & T1 & T2). pose proof (turned_perm _ _ T1) as P1. pose proof (turned_perm _ _ T2) as P2. pose proof (turned_nodup _ _ T1 N) as N1.
  destruct (IH (firstn k poly ++ skipn (S k) poly)) as (fs & ->).
  - apply (Permutation_Forall (Permutation_sym P2)). apply (Permutation_Forall P1) in F. inversion F as [|? ? FA F1]. inversion F1. constructor; assumption.
  - apply Permutation_length in P1, P2. cbn [List.length] in *. lia.
  - apply (Permutation_NoDup (Permutation_sym P2)). inversion N1 as [|? ? A1 N2]. inversion N2 as [|? ? B1 N3]. constructor; [|exact N3]. intros I. apply A1. right. exact I.
  - cbn [rbind]. eexists. reflexivity.
Qed.
Lemma corner_in points : points <> [] -> (find_corner points < List.length points)%nat.
Proof.
  intros NE. unfold find_corner.
  assert (G : forall l s, (fst (fst s) < List.length points)%nat -> Forall (fun ip : nat * point => (fst ip < List.length points)%nat) l ->
    (fst (fst (fold_left (fun s ip => let '(m, y0, x0) := s in let '(i, (x, y)) := ip in if lt32 y0 y then s else if eq32b y y0 && le32b x0 x then s else (i, y, x)) l s)) < List.length points)%nat).
  { induction l as [|[i [x y]] l IH]; intros [[m y0] x0] S F; [exact S|]. inversion F as [|? ? I F']. subst. cbn [fold_left]. apply IH; [|exact F']. destruct (lt32 y0 y); [exact S|]. destruct (_ && _); [exact S|exact I]. }
  apply G; [destruct points; [congruence|cbn; lia]|]. apply Forall_forall. intros [i p] I. apply in_combine_l, in_seq in I. cbn. lia.
Qed.
Lemma clockwise_ok points : exists x, is_clockwise points = Ok x.
Proof.
  unfold is_clockwise. destruct (List.length points <? 3)%nat eqn:N; [eexists; reflexivity|].
  assert (NE : points <> []) by (intros ->; discriminate). pose proof (corner_in points NE) as C.
  assert (G : forall i, (i < List.length points)%nat -> exists p, nth_error points i = Some p).
  { intros i I. destruct (nth_error points i) as [p|] eqn:E; [eauto|]. apply nth_error_None in E. lia. }
  destruct (G ((find_corner points + List.length points - 1) mod List.length points)%nat) as (a & ->); [apply Nat.mod_upper_bound; lia|].
  destruct (G (find_corner points) C) as (b & ->). destruct (G ((find_corner points + 1) mod List.length points)%nat) as (c & ->); [apply Nat.mod_upper_bound; lia|]. eexists. reflexivity.
Qed.
Lemma poly_facts (r : bool) n : let p := if r then rev (seq 0 n) else seq 0 n in NoDup p /\ List.length p = n /\ forall i, In i p <-> (i < n)%nat.
Proof.
  intros p. unfold p. destruct r; rewrite ?rev_length, ?seq_length; repeat split.
  - apply NoDup_rev, seq_NoDup.
  - intros I. apply in_rev, in_seq in I. lia.
  - intros I. apply -> in_rev. apply in_seq. lia.
  - apply seq_NoDup.
  - intros I. apply in_seq in I. lia.
  - intros I. apply in_seq. lia.
Qed.
(** Both are the same loop, with one or the other order of the vertices. *)
Lemma triangulate_clip t (points : list point) : triangulators t -> (3 <= List.length points)%nat ->
  exists same outside (r : bool), t points = clip (advance_point points same outside) (List.length points - 2) (if r then rev (seq 0 (List.length points)) else seq 0 (List.length points)).
Proof.
  intros [-> | ->] N.
  - unfold triangulate_wall. cbv zeta. replace (List.length points <? 3)%nat with false by lia. eexists _, _, (lt32 f32_zero (signed_area points)). reflexivity.
  - unfold triangulate_flasher. cbv zeta. replace (List.length points <? 3)%nat with false by lia. destruct (clockwise_ok points) as (x & ->). cbn [rbind]. eexists _, _, x. reflexivity.
Qed.
Lemma few_points t (points : list point) : triangulators t -> (List.length points < 3)%nat -> t points = Ok [].
Proof. intros [-> | ->] N; [unfold triangulate_wall|unfold triangulate_flasher]; cbv zeta; replace (List.length points <? 3)%nat with true by lia; reflexivity. Qed.

(** Any list of vertices, also of NaN and infinite coordinates, is handled without a panic. *)
Theorem C59_total : forall t (points : list point), triangulators t -> exists fs, t points = Ok fs.
Proof.
  intros t points T. destruct (Nat.lt_ge_cases (List.length points) 3) as [N|N]; [rewrite few_points by assumption; eauto|].
  destruct (triangulate_clip t points T N) as (same & outside & r & ->). destruct (poly_facts r (List.length points)) as (ND & L & IN).
  apply clip_ok; [apply Forall_forall; intros i; apply IN|rewrite L; lia|exact ND].
Qed.
Print Assumptions C59_total.

(** At most n-2 triangles, each of three different vertices of the polygon *)
Theorem C59_triangles : forall t (points : list point) fs, triangulators t -> t points = Ok fs ->
  zlen fs <= Z.max 0 (zlen points - 2) /\ Forall (fun f => face_within 0 (zlen points - 1) f /\ distinct_corners f) fs.
Proof.
  intros t points fs T H. destruct (Nat.lt_ge_cases (List.length points) 3) as [N|N]; [rewrite few_points in H by assumption; injection H as <-; split; [unfold zlen; cbn; lia|constructor]|].
  destruct (triangulate_clip t points T N) as (same & outside & r & E). rewrite E in H. destruct (poly_facts r (List.length points)) as (ND & L & IN).
  destruct (clip_spec _ _ _ _ H ltac:(rewrite L; lia) ND) as (rest & ds & _ & _ & LR & _ & PE & _ & F). split.
  - unfold zlen. rewrite L in LR. assert (LE : (List.length fs <= List.length points - 2)%nat); [|lia].
    clear -H. revert fs H. generalize (if r then rev (seq 0 (List.length points)) else seq 0 (List.length points)) as poly. generalize (List.length points - 2)%nat as count.
    induction count as [|count IH]; intros poly fs H; [injection H as <-; cbn; lia|]. cbn [clip] in H. destruct (find_ear _ _ _ _) as [[[k [[a b] c]]|]|]; cbn [rbind] in H; [|injection H as <-; cbn; lia|discriminate].
    destruct (clip _ count _) as [fs'|] eqn:E; [|discriminate]. cbn [rbind] in H. injection H as <-. apply IH in E. cbn [List.length]. lia.
  - eapply Forall_impl; [|exact F]. intros f (D & a & b & c & A & B & C & ->). split; [|exact D]. apply IN in A, B, C. unfold face_within, zlen. cbn. lia.
Qed.
Print Assumptions C59_triangles.

Lemma forwards_cycle n : forwards (Z.of_nat n) = map zpair (cycle (seq 0 n)).
Proof.
  destruct n as [|n]; [reflexivity|]. unfold forwards, steps. rewrite Nat2Z.id, map_map. cbn [seq].
  change (cycle (0%nat :: seq 1 n)) with (combine (seq 0 (S n)) (seq 1 n ++ [0%nat])).
  assert (G : forall k i, (i + k = n)%nat -> map (fun x => (Z.of_nat x, if Z.of_nat x =? Z.of_nat (S n) - 1 then 0 else Z.of_nat x + 1)) (seq i (S k)) = map zpair (combine (seq i (S k)) (seq (S i) k ++ [0%nat]))).
  { induction k as [|k IH]; intros i I.
    - cbn [seq map app combine]. unfold zpair. cbn [fst snd]. replace (Z.of_nat i =? Z.of_nat (S n) - 1) with true by lia. reflexivity.
    - change (seq i (S (S k))) with (i :: seq (S i) (S k)). change (seq (S i) (S k)) with (S i :: seq (S (S i)) k) at 3. cbn [map app combine]. rewrite (IH (S i)) by lia. f_equal.
      unfold zpair. cbn [fst snd]. replace (Z.of_nat i =? Z.of_nat (S n) - 1) with false by lia. f_equal. lia. }
  apply (G n 0%nat). lia.
Qed.
Lemma cycle_outline (r : bool) n : outline (Z.of_nat n) (map swap (map zpair (cycle (if r then rev (seq 0 n) else seq 0 n)))).
Proof.
  unfold outline. rewrite forwards_cycle. destruct r; [left|right; reflexivity].
  assert (SW : forall l : list (Z * Z), map swap (map swap l) = l) by (intros l; rewrite map_map; rewrite <- (map_id l) at 2; apply map_ext; intros []; reflexivity).
  rewrite <- (SW (map zpair (cycle (seq 0 n)))). apply Permutation_map.
  rewrite (Permutation_map zpair (cycle_rev (seq 0 n))). rewrite !map_map. reflexivity.
Qed.
Lemma swap_swap {A} (l : list (A * A)) : map swap (map swap l) = l.
Proof. rewrite map_map. rewrite <- (map_id l) at 2. apply map_ext. intros []. reflexivity. Qed.
Lemma ring_cycle l : ring (map Z.of_nat l) = map zpair (cycle l).
Proof. destruct l as [|x r]; [reflexivity|]. change (ring (map Z.of_nat (x :: r))) with (cycle (map Z.of_nat (x :: r))). rewrite cycle_map. reflexivity. Qed.

(** Whatever has been cut off, the triangles and a polygon that is left have together the edges of the outline and diagonals in both directions. *)
Theorem C59_left : forall t (points : list point) fs, triangulators t -> t points = Ok fs -> 3 <= zlen points ->
  exists border rest diagonals, outline (zlen points) border /\ NoDup rest /\ Forall (fun i => 0 <= i < zlen points) rest /\
    zlen rest = zlen points - zlen fs /\ zlen diagonals = zlen fs /\
    Permutation (edges fs ++ ring rest) (border ++ diagonals ++ map swap diagonals).
Proof.
  intros t points fs T H N3. assert (N : (3 <= List.length points)%nat) by (unfold zlen in N3; lia).
  destruct (triangulate_clip t points T N) as (same & outside & r & E). rewrite E in H. destruct (poly_facts r (List.length points)) as (ND & L & IN).
  set (p := if r then rev (seq 0 (List.length points)) else seq 0 (List.length points)) in *.
  destruct (clip_spec _ _ _ _ H ltac:(rewrite L; lia) ND) as (rest & ds & NR & IR & LR & LD & PE & _ & _).
  exists (map swap (map zpair (cycle p))), (map Z.of_nat (rev rest)), (map swap ds). split; [apply cycle_outline|].
  split; [apply FinFun.Injective_map_NoDup; [intros x y; apply Nat2Z.inj|apply NoDup_rev, NR]|].
  split; [apply Forall_map, Forall_forall; intros i I; apply in_rev in I; apply IR, IN in I; unfold zlen; lia|].
  split; [unfold zlen; rewrite map_length, rev_length; lia|]. split; [unfold zlen; rewrite map_length; lia|].
  rewrite ring_cycle. apply (Permutation_map swap) in PE. rewrite !map_app, !swap_swap in PE. rewrite (Permutation_map zpair (cycle_rev rest)).
  replace (map zpair (map swap (cycle rest))) with (map swap (map zpair (cycle rest))) by (rewrite !map_map; reflexivity). rewrite PE, swap_swap.
  reflexivity.
Qed.
Print Assumptions C59_left.

Lemma two_out {A} (d1 d2 s1 s2 : list A) e f : Permutation ((d1 ++ e :: d2) ++ (s1 ++ f :: s2)) (((d1 ++ d2) ++ (s1 ++ s2)) ++ [e; f]).
Proof.
  rewrite <- (Permutation_middle d1 d2 e). rewrite <- (Permutation_middle s1 s2 f). cbn [app]. rewrite <- (Permutation_middle (d1 ++ d2) (s1 ++ s2) f).
  rewrite (Permutation_app_comm _ [e; f]). reflexivity.
Qed.
(** The same for the loop, with the vertices in one order or the other *)
Lemma clip_filled advance (r : bool) n fs : (3 <= n)%nat -> let p := if r then rev (seq 0 n) else seq 0 n in clip advance (n - 2) p = Ok fs -> List.length fs = (n - 2)%nat ->
  exists ds, (List.length ds = n - 3)%nat /\ Permutation (edges fs) (map swap (map zpair (cycle p)) ++ ds ++ map swap ds).
Proof.
  intros N p H C. destruct (poly_facts r n) as (ND & L & IN). fold p in ND, L, IN.
  destruct (clip_spec _ _ _ _ H ltac:(rewrite L; lia) ND) as (rest & ds & NR & IR & LR & LD & PE & TWO & _).
  destruct TWO as [-> | (e & I1 & I2)]; [lia|cbn in C; lia|].
  destruct rest as [|u [|v [|? ?]]]; try (cbn in LR; lia).
  apply in_split in I2. destruct I2 as (d1 & d2 & ->).
  exists (map swap (d1 ++ d2)). split; [rewrite map_length, app_length in *; cbn in LD; lia|].
  assert (R : Permutation (map zpair (cycle [u; v])) [e; swap e]).
  { cbn in I1. destruct I1 as [<-|[<-|[]]]; [reflexivity|]. cbn. apply perm_swap. }
  rewrite R in PE.
  assert (PE' : Permutation (map swap (edges fs)) (map zpair (cycle p) ++ (d1 ++ d2) ++ map swap (d1 ++ d2))).
  { apply (Permutation_app_inv_r [e; swap e]). rewrite PE, !map_app. cbn [map]. rewrite <- !app_assoc. apply Permutation_app_head. rewrite !app_assoc.
    rewrite <- (app_assoc (d1 ++ e :: d2)), <- (app_assoc (d1 ++ d2)). apply two_out. }
  apply (Permutation_map swap) in PE'. rewrite !map_app, !swap_swap in PE'. rewrite !map_app, !swap_swap. exact PE'.
Qed.
(** When n-2 triangles are found they fill the polygon: their edges are its outline, and n-3 diagonals in both directions. *)
Theorem C59_filled : forall t (points : list point) fs, triangulators t -> t points = Ok fs -> 3 <= zlen points -> zlen fs = zlen points - 2 ->
  exists border diagonals, outline (zlen points) border /\ zlen diagonals = zlen points - 3 /\
    Permutation (edges fs) (border ++ diagonals ++ map swap diagonals).
Proof.
  intros t points fs T H N3 C. assert (N : (3 <= List.length points)%nat) by (unfold zlen in N3; lia).
  destruct (triangulate_clip t points T N) as (same & outside & r & E). rewrite E in H. destruct (clip_filled _ r _ _ N H) as (ds & LD & P); [unfold zlen in *; lia|].
  exists (map swap (map zpair (cycle (if r then rev (seq 0 (List.length points)) else seq 0 (List.length points))))), ds.
  split; [apply cycle_outline|]. split; [unfold zlen; lia|exact P].
Qed.
Print Assumptions C59_filled.
(** No edge is used twice in the same direction, and none of the outline against the direction in which the outline is used: so at every edge at most
    two triangles meet, and they have the same side up. *)
Theorem C59_once : forall t (points : list point) fs, triangulators t -> t points = Ok fs -> NoDup (edges fs) /\
  (3 <= zlen points -> exists border, outline (zlen points) border /\ forall e, In e border -> ~ In (swap e) (edges fs)).
Proof.
  intros t points fs T H. destruct (Nat.lt_ge_cases (List.length points) 3) as [N|N]; [rewrite few_points in H by assumption; injection H as <-; split; [constructor|unfold zlen; lia]|].
  destruct (triangulate_clip t points T N) as (same & outside & r & E). rewrite E in H. destruct (poly_facts r (List.length points)) as (ND & L & IN).
  destruct (clip_once _ _ _ _ H ltac:(rewrite L; lia) ND) as (O & B). split; [exact O|]. intros _.
  exists (map swap (map zpair (cycle (if r then rev (seq 0 (List.length points)) else seq 0 (List.length points))))). split; [apply cycle_outline|].
  intros e I. apply in_map_iff in I. destruct I as (e' & <- & I). apply in_map_iff in I. destruct I as (e & <- & I). apply B in I. destruct e. exact I.
Qed.
Print Assumptions C59_once.

Lemma sum_app a b : sum (a ++ b) = sum a + sum b.
Proof. unfold sum. induction a as [|x a IH]; [reflexivity|]. cbn [app fold_right]. rewrite IH. lia. Qed.
Lemma sum_perm a b : Permutation a b -> sum a = sum b.
Proof. unfold sum. induction 1; cbn [fold_right]; lia. Qed.
Lemma along_app points f a b : along points f (a ++ b) = along points f a + along points f b.
Proof. unfold along. rewrite map_app. apply sum_app. Qed.
Lemma along_perm points f a b : Permutation a b -> along points f a = along points f b.
Proof. intros P. unfold along. apply sum_perm, Permutation_map, P. Qed.
Definition opposite_edges (f : Z * Z -> Z * Z -> Z) : Prop := forall a b, f a b = - f b a.
Lemma along_swap points f es : opposite_edges f -> along points f (map swap es) = - along points f es.
Proof.
  intros O. unfold along, sum. induction es as [|[a b] es IH]; [reflexivity|]. cbn [map fold_right swap fst snd] in *. rewrite IH. rewrite (O (place_at points b)). lia.
Qed.
Lemma along_edges points f fs : along points f (edges fs) = sum (map (fun g => along points f (edges [g])) fs).
Proof. induction fs as [|g fs IH]; [reflexivity|]. change (edges (g :: fs)) with (edges [g] ++ edges fs). rewrite along_app, IH. reflexivity. Qed.
Lemma minus_one x : - x = -1 * x.
Proof. lia. Qed.
Lemma cross_opposite : opposite_edges cross.
Proof. intros [a b] [c d]. unfold cross. cbn. lia. Qed.
Lemma passes_opposite p : opposite_edges (passes p).
Proof.
  intros [ax ay] [bx by_]. destruct p as [px py]. unfold passes. cbn [fst snd].
  replace ((ax - bx) * (py - by_) - (px - bx) * (ay - by_)) with (- ((bx - ax) * (py - ay) - (px - ax) * (by_ - ay))) by ring.
  generalize ((bx - ax) * (py - ay) - (px - ax) * (by_ - ay)) as s. intros s.
  destruct (ay <=? py) eqn:A, (py <? by_) eqn:B, (0 <? s) eqn:C, (by_ <=? py) eqn:D, (py <? ay) eqn:F, (s <? 0) eqn:G, (0 <? - s) eqn:H, (- s <? 0) eqn:I; cbn; lia.
Qed.

(** So their areas add up to the exact area of the polygon, and around any point they wind as often as the polygon. *)
Theorem C59_measure : forall t (points : list point) fs, triangulators t -> t points = Ok fs -> 3 <= zlen points -> zlen fs = zlen points - 2 ->
  exists direction, (direction = 1 \/ direction = -1) /\ triangles_area points fs = direction * polygon_area points /\
    forall p, coverage points fs p = direction * winding points p.
Proof.
  intros t points fs T H N C. destruct (C59_filled t points fs T H N C) as (border & ds & O & _ & P).
  assert (G : forall f, opposite_edges f -> along points f (edges fs) = along points f border).
  { intros f F. rewrite (along_perm points f _ _ P), !along_app, along_swap by exact F. lia. }
  assert (TA : triangles_area points fs = along points cross (edges fs)).
  { rewrite along_edges. unfold triangles_area. f_equal. apply map_ext. intros g. unfold along, edges, sum. cbn [flat_map app map fold_right fst snd].
    unfold cross. set (a := place_at points (f_0 g)). set (b := place_at points (f_1 g)). set (c := place_at points (f_2 g)). lia. }
  assert (CV : forall p, coverage points fs p = along points (passes p) (edges fs)) by (intros p; rewrite along_edges; reflexivity).
  destruct O as [O|O]; [exists 1|exists (-1)]; (split; [auto|]); (split; [rewrite TA, (G cross cross_opposite)|intros p; rewrite CV, (G _ (passes_opposite p))]);
    rewrite (along_perm points _ _ _ O), ?along_swap by (apply cross_opposite || apply passes_opposite); first [exact (eq_sym (Z.mul_1_l _)) | exact (minus_one _)].
Qed.
Print Assumptions C59_measure.

(** A square with a notch *)
Definition corner (x y : Z) : f32 * f32 := (int32 x, int32 y).
Definition notched : list (f32 * f32) := [corner 0 0; corner 8 0; corner 8 8; corner 4 3; corner 0 8].
Example C59_filled_case : exists fs, triangulate_wall notched = Ok fs /\ triangulate_flasher notched = Ok fs /\ zlen fs = zlen notched - 2 /\ simple notched = true /\
  triangles_area notched fs = 88 * (2 ^ 149 * 2 ^ 149) /\ coverage notched fs (6 * 2 ^ 149, 4 * 2 ^ 149) = 1 /\ coverage notched fs (4 * 2 ^ 149, 4 * 2 ^ 149) = 0.
Proof. eexists. split; [vm_compute; reflexivity|]. repeat split; vm_compute; reflexivity. Qed.
Example C59_nan_case : exists fs, triangulate_wall [corner 0 0; (Z_to_w32 0x7fc00000, f32_zero); corner 8 8; corner 1 5] = Ok fs /\ zlen fs = 1.
Proof. eexists. split; [vm_compute; reflexivity|reflexivity]. Qed.

(** FINDING: not every simple polygon is cut up. For this one, in which no three neighbours are on a line, no triangle is found, and a wall, light or
    flasher of this shape has no top at all: a vertex on the line through a diagonal blocks it wherever it is, because only the x-coordinate is compared. *)
Definition jagged : list (f32 * f32) := [corner 5 0; corner 7 7; corner 5 4; corner 6 8; corner 5 6; corner 0 4].
Theorem C59_complete_refuted : exists points, simple points = true /\ Forall (fun p => finite32 (fst p) /\ finite32 (snd p)) points /\
  triangulate_wall points = Ok [] /\ triangulate_flasher points = Ok [] /\ zlen points = 6.
Proof.
  exists jagged. split; [vm_compute; reflexivity|]. split; [repeat (apply Forall_cons; [split; vm_compute; exact I|]); constructor|]. repeat split; vm_compute; reflexivity.
Qed.
Print Assumptions C59_complete_refuted.

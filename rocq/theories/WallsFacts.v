(** Lemmas about meshes of walls: vertices, triangles and surfaces. *)
From Coq Require Import Floats.SpecFloat ZifyBool Permutation.
From Verif Require Import Base Text Image Sound Quantize ColorText Cfb JsonFloat Mesh SpecMesh Browser Common ItemWall Builtin SpecBuiltin BuiltinFacts Polygon SpecPolygon PolygonFacts PropertiesPolygon Smooth SpecSmooth Walls SpecWalls VpxFacts.

Definition next (n i : Z) : Z := if i =? n - 1 then 0 else i + 1.
(** ** Vertices *)
Lemma flat4 {A B} (f : A -> list B) : (forall a, List.length (f a) = 4%nat) -> forall l k b, nth_error (flat_map f l) k = Some b ->
  exists a, nth_error l (k / 4) = Some a /\ nth_error (f a) (k mod 4) = Some b.
Proof.
  intros F. induction l as [|a l IH]; intros k b H; [destruct k; discriminate|]. cbn [flat_map] in H. destruct (Nat.lt_ge_cases k 4) as [K|K].
  - rewrite nth_error_app1 in H by (rewrite F; exact K). exists a. rewrite Nat.div_small, Nat.mod_small by exact K. split; [reflexivity|exact H].
  - rewrite nth_error_app2 in H by (rewrite F; exact K). rewrite F in H. destruct (IH _ _ H) as (a' & N & E). exists a'.
    replace k with (k - 4 + 1 * 4)%nat by lia. rewrite Nat.div_add, Nat.mod_add by lia. split; [|exact E]. rewrite Nat.add_1_r. exact N.
Qed.
Lemma flat4_len {A B} (f : A -> list B) : (forall a, List.length (f a) = 4%nat) -> forall l, List.length (flat_map f l) = (4 * List.length l)%nat.
Proof. intros F. induction l as [|a l IH]; [reflexivity|]. cbn [flat_map List.length]. rewrite app_length, F, IH. lia. Qed.
Lemma nth_seq0 n i a : nth_error (seq 0 n) i = Some a -> a = i /\ (i < n)%nat.
Proof.
  intros H. assert (L : (i < n)%nat) by (rewrite <- (seq_length n 0); apply nth_error_Some; congruence). split; [|exact L].
  apply (nth_error_nth _ _ 0%nat) in H. rewrite seq_nth in H by exact L. lia.
Qed.
Lemma after_next n i : (i < n)%nat -> Z.of_nat (after_index n i) = next (Z.of_nat n) (Z.of_nat i).
Proof. intros H. unfold after_index, next. destruct (i + 1 <? n)%nat eqn:E; destruct (Z.of_nat i =? Z.of_nat n - 1) eqn:F; lia. Qed.
Lemma after_in n i : (i < n)%nat -> (after_index n i < n)%nat.
Proof. intros H. unfold after_index. destruct (i + 1 <? n)%nat eqn:E; lia. Qed.
Lemma corner_nth points bottom top i : (i < List.length points)%nat ->
  corner_at points bottom top (Bottom (Z.of_nat i)) = Some (rv_x (nth i points no_vertex), rv_y (nth i points no_vertex), bottom) /\
  corner_at points bottom top (Top (Z.of_nat i)) = Some (rv_x (nth i points no_vertex), rv_y (nth i points no_vertex), top).
Proof. intros I. unfold corner_at. rewrite Nat2Z.id. rewrite (nth_error_nth' points no_vertex I). split; reflexivity. Qed.
(** The corner of which a vertex is the number [k]: its place and what it has there *)
Lemma side_vertex w points coords k v : nth_error (fst (build_side_mesh w points coords)) k = Some v ->
  (k < 4 * List.length points)%nat /\
  corner_at points (Wall_height_bottom w) (Wall_height_top w) (side_place (zlen points) (Z.of_nat k)) = Some (position_of v) /\
  match side_place (zlen points) (Z.of_nat k) with
  | Top i => match coords with Some c => v_tu v = nth (Z.to_nat i) c f32_zero /\ v_tv v = f32_zero | None => v_tu v = f32_zero /\ v_tv v = f32_zero end
  | Bottom i => match coords with Some c => v_tu v = nth (Z.to_nat i) c f32_zero /\ v_tv v = f32_one | None => v_tu v = f32_zero /\ v_tv v = f32_zero end
  | _ => False
  end.
Proof.
  intros H. cbn [build_side_mesh fst] in H. assert (L : (k < 4 * List.length points)%nat).
  { assert (X : (k < List.length (flat_map (side_vertices w points coords) (seq 0 (List.length points))))%nat) by (apply nth_error_Some; congruence).
    rewrite flat4_len, seq_length in X by reflexivity. exact X. }
  split; [exact L|]. apply flat4 in H; [|reflexivity]. destruct H as (i & N & E). apply nth_seq0 in N. destruct N as [-> I].
  set (i := (k / 4)%nat) in *. assert (KI : Z.of_nat k / 4 = Z.of_nat i) by (unfold i; rewrite Nat2Z.inj_div; reflexivity).
  assert (KM : Z.of_nat k mod 4 = Z.of_nat (k mod 4)) by (rewrite Nat2Z.inj_mod; reflexivity).
  unfold side_place. cbv zeta. rewrite KI, KM. fold (next (zlen points) (Z.of_nat i)). unfold zlen. rewrite <- (after_next (List.length points) i I).
  pose proof (Nat.mod_upper_bound k 4 ltac:(lia)) as U. pose proof (corner_nth points (Wall_height_bottom w) (Wall_height_top w) _ I) as [B1 T1].
  pose proof (corner_nth points (Wall_height_bottom w) (Wall_height_top w) _ (after_in _ _ I)) as [B2 T2].
  unfold side_vertices in E. cbv zeta in E. clearbody i.
  revert E B1 T1 B2 T2. generalize (corner_normal points i i (before_index (List.length points) i) true) (corner_normal points (after_index (List.length points) i) i (after_index (List.length points) i) false).
  intros n0 n1 E B1 T1 B2 T2. unfold position_of.
  destruct (k mod 4)%nat as [|[|[|[|m]]]]; [| | | |lia]; cbn [nth_error] in E; injection E as <-; cbn [v_x v_y v_z v_tu v_tv].
  - change (Z.of_nat 0 =? 0) with true. cbv iota. rewrite B1, Nat2Z.id. destruct coords; repeat split.
  - change (Z.of_nat 1 =? 0) with false. change (Z.of_nat 1 =? 1) with true. cbv iota. rewrite T1, Nat2Z.id. destruct coords; repeat split.
  - change (Z.of_nat 2 =? 0) with false. change (Z.of_nat 2 =? 1) with false. change (Z.of_nat 2 =? 2) with true. cbv iota. rewrite T2, Nat2Z.id. destruct coords; repeat split.
  - change (Z.of_nat 3 =? 0) with false. change (Z.of_nat 3 =? 1) with false. change (Z.of_nat 3 =? 2) with false. cbv iota. rewrite B2, Nat2Z.id. destruct coords; repeat split.
Qed.
Lemma side_count w points coords : zlen (fst (build_side_mesh w points coords)) = 4 * zlen points.
Proof. unfold zlen. cbn [build_side_mesh fst]. rewrite flat4_len, seq_length by reflexivity. lia. Qed.
Lemma side_face_count w points coords : zlen (snd (build_side_mesh w points coords)) = 2 * zlen points.
Proof.
  unfold zlen. cbn [build_side_mesh snd]. rewrite <- (seq_length (List.length points) 0) at 2. induction (seq 0 (List.length points)) as [|i l IH]; [reflexivity|]. cbn [flat_map List.length]. rewrite app_length. cbn [side_faces List.length]. lia.
Qed.
Lemma side_faces_good w points coords f : In f (snd (build_side_mesh w points coords)) -> face_within 0 (4 * zlen points - 1) f /\ distinct_corners f.
Proof.
  cbn [build_side_mesh snd]. intros I. apply in_flat_map in I. destruct I as (i & I & F). apply in_seq in I. unfold side_faces in F. cbv zeta in F. unfold zlen.
  destruct F as [<-|[<-|[]]]; unfold face_within, distinct_corners; cbn [f_0 f_1 f_2]; lia.
Qed.

(** ** Edges of the sides *)
Definition side_edges (n i : Z) : list (place * place) :=
  [(Bottom i, Top i); (Top i, Top (next n i)); (Top (next n i), Bottom i); (Bottom i, Top (next n i)); (Top (next n i), Bottom (next n i)); (Bottom (next n i), Bottom i)].
Lemma place_side n i r : 0 <= r < 4 -> side_place n (4 * i + r) = if r =? 0 then Bottom i else if r =? 1 then Top i else if r =? 2 then Top (next n i) else Bottom (next n i).
Proof. intros R. unfold side_place. cbv zeta. replace ((4 * i + r) / 4) with i by lia. replace ((4 * i + r) mod 4) with r by lia. reflexivity. Qed.
Lemma edges_app a b : edges (a ++ b) = edges a ++ edges b.
Proof. unfold edges. apply flat_map_app. Qed.
Lemma sides_placed w points coords : map (between (side_place (zlen points))) (edges (snd (build_side_mesh w points coords))) = flat_map (side_edges (zlen points)) (steps (zlen points)).
Proof.
  cbn [build_side_mesh snd]. unfold steps. unfold zlen at 3. rewrite Nat2Z.id. generalize (zlen points) as n. intros n. induction (seq 0 (List.length points)) as [|i l IH]; [reflexivity|].
  cbn [flat_map map]. rewrite edges_app, map_app, IH. f_equal. unfold side_faces, side_edges, between, edges. cbv zeta. cbn [flat_map app map f_0 f_1 f_2 fst snd].
  replace (Z.of_nat i * 4) with (4 * Z.of_nat i + 0) by lia. rewrite <- !Z.add_assoc. cbn [Z.add]. rewrite !place_side by lia. reflexivity.
Qed.
Lemma nodup_flat {A B} (f : A -> list B) : forall l, NoDup l -> (forall a, In a l -> NoDup (f a)) -> (forall a b x, In a l -> In b l -> In x (f a) -> In x (f b) -> a = b) -> NoDup (flat_map f l).
Proof.
  induction l as [|a l IH]; intros N F D; [constructor|]. inversion N as [|? ? NA N']. subst. cbn [flat_map]. apply NoDup_app_disjoint; [apply F; left; reflexivity| |].
  - apply IH; [exact N'|intros; apply F; right; assumption|]. intros x y z X Y. apply D; right; assumption.
  - intros x X Y. apply in_flat_map in Y. destruct Y as (b & B1 & B2). assert (a = b) by (apply (D a b x); [left; reflexivity|right; exact B1|exact X|exact B2]). subst. contradiction.
Qed.

(** ** The surface *)
Lemma forwards_in n a b : In (a, b) (forwards n) <-> 0 <= a < n /\ b = next n a.
Proof.
  unfold forwards, next. split.
  - intros I. apply in_map_iff in I. destruct I as (i & E & I). apply steps_in in I. injection E as <- <-. split; [exact I|reflexivity].
  - intros [I ->]. apply in_map_iff. exists a. split; [reflexivity|apply steps_in, I].
Qed.
Lemma next_range n i : 0 <= i < n -> 0 <= next n i < n.
Proof. unfold next. destruct (i =? n - 1) eqn:E; lia. Qed.
Lemma next_inj n i j : 0 <= i < n -> 0 <= j < n -> next n i = next n j -> i = j.
Proof. unfold next. destruct (i =? n - 1) eqn:E, (j =? n - 1) eqn:F; lia. Qed.
Lemma next_next n i : 3 <= n -> 0 <= i < n -> next n i <> i /\ next n (next n i) <> i.
Proof. intros N I. unfold next. destruct (i =? n - 1) eqn:E; [split; [lia|]|split; [lia|]]; [destruct (0 =? n - 1) eqn:F|destruct (i + 1 =? n - 1) eqn:F]; lia. Qed.
Lemma previous n j : 0 <= j < n -> exists i, 0 <= i < n /\ next n i = j.
Proof. intros J. exists (if j =? 0 then n - 1 else j - 1). unfold next. destruct (j =? 0) eqn:E; [replace (n - 1 =? n - 1) with true by lia; lia|]. destruct (j - 1 =? n - 1) eqn:F; lia. Qed.
Lemma side_edge_in n e : In e (flat_map (side_edges n) (steps n)) <-> exists i, 0 <= i < n /\ In e (side_edges n i).
Proof. rewrite in_flat_map. split; intros (i & I & J); exists i; (split; [apply steps_in|]; assumption). Qed.
Lemma sides_once n : 3 <= n -> NoDup (flat_map (side_edges n) (steps n)).
Proof.
  intros N. apply nodup_flat.
  - unfold steps. apply FinFun.Injective_map_NoDup; [intros x y; apply Nat2Z.inj|apply seq_NoDup].
  - intros i I. apply steps_in in I. destruct (next_next n i N I) as [N1 N2]. unfold side_edges.
    repeat (constructor; [cbn; intros F; repeat (destruct F as [F|F]; [injection F; intros; congruence || (exfalso; congruence)|]); try contradiction|]). constructor.
  - intros i j e I J A B. apply steps_in in I, J. destruct (next_next n i N I) as [I1 I2]. destruct (next_next n j N J) as [J1 J2]. pose proof (next_inj n i j I J) as U.
    unfold side_edges in A, B. cbn in A, B.
    repeat (destruct A as [A|A]; [subst e; repeat (destruct B as [B|B]; [injection B; intros; subst; try congruence; auto|]); contradiction|]). contradiction.
Qed.
Lemma wall_surface n fs ds : 3 <= n -> Permutation (edges fs) (map swap (forwards n) ++ ds ++ map swap ds) -> NoDup (edges fs) ->
  (forall e, In e (forwards n) -> ~ In e (edges fs)) ->
  closed_surface ((flat_map (side_edges n) (steps n) ++ map (between Top) (edges fs)) ++ bottom_outline n).
Proof.
  intros N P ND B. split.
  - rewrite <- app_assoc. apply NoDup_app_disjoint; [apply sides_once, N| |].
    + apply NoDup_app_disjoint.
      * apply FinFun.Injective_map_NoDup; [|exact ND]. intros [a b] [c d] E. unfold between in E. cbn in E. congruence.
      * unfold bottom_outline. apply FinFun.Injective_map_NoDup; [intros [a b] [c d] E; unfold between in E; cbn in E; congruence|]. unfold forwards.
        apply FinFun.Injective_map_NoDup; [intros a b E; congruence|]. unfold steps. apply FinFun.Injective_map_NoDup; [intros x y; apply Nat2Z.inj|apply seq_NoDup].
      * intros e I J. apply in_map_iff in I, J. destruct I as (x & <- & _). destruct J as (y & E & _). discriminate.
    + intros e I J. apply side_edge_in in I. destruct I as (i & I & K). destruct (next_next n i N I) as [I1 I2]. apply in_app_or in J. destruct J as [J|J].
      * apply in_map_iff in J. destruct J as ([a b] & <- & J). unfold between, side_edges in K. cbn in K.
        repeat (destruct K as [K|K]; [try discriminate; injection K as <- <-|]); [|contradiction]. apply (B (i, next n i)); [apply forwards_in; auto|exact J].
      * apply in_map_iff in J. destruct J as ([a b] & <- & J). apply forwards_in in J. destruct J as [J ->]. unfold between, side_edges in K. cbn in K.
        repeat (destruct K as [K|K]; [try discriminate; injection K; intros; subst|]); [congruence|contradiction].
  - intros p q I. rewrite !in_app_iff in *. destruct I as [[I|I]|I].
    + apply side_edge_in in I. destruct I as (i & I & K). unfold side_edges in K. cbn in K. destruct K as [K|[K|[K|[K|[K|[K|[]]]]]]]; injection K as <- <-.
      * left. left. destruct (previous n i I) as (j & J & <-). apply side_edge_in. exists j. split; [exact J|]. cbn. tauto.
      * left. right. apply in_map_iff. exists (next n i, i). split; [reflexivity|]. apply (Permutation_in _ (Permutation_sym P)). apply in_or_app. left.
        apply in_map_iff. exists (i, next n i). split; [reflexivity|]. apply forwards_in. auto.
      * left. left. apply side_edge_in. exists i. split; [exact I|]. cbn. tauto.
      * left. left. apply side_edge_in. exists i. split; [exact I|]. cbn. tauto.
      * left. left. apply side_edge_in. exists (next n i). split; [apply next_range, I|]. cbn. tauto.
      * right. apply in_map_iff. exists (i, next n i). split; [reflexivity|]. apply forwards_in. auto.
    + apply in_map_iff in I. destruct I as ([a b] & E & I). injection E as <- <-. apply (Permutation_in _ P) in I. rewrite !in_app_iff in I. destruct I as [I|[I|I]].
      * apply in_map_iff in I. destruct I as ([c d] & E & I). injection E as <- <-. apply forwards_in in I. destruct I as [I ->]. left. left. apply side_edge_in. exists c. split; [exact I|]. cbn. tauto.
      * left. right. apply in_map_iff. exists (b, a). split; [reflexivity|]. apply (Permutation_in _ (Permutation_sym P)). rewrite !in_app_iff. right. right. change (b, a) with (swap (a, b)). apply in_map, I.
      * apply in_map_iff in I. destruct I as ([c d] & E & I). injection E as <- <-. left. right. apply in_map_iff. exists (c, d). split; [reflexivity|]. apply (Permutation_in _ (Permutation_sym P)). rewrite !in_app_iff. tauto.
    + apply in_map_iff in I. destruct I as ([a b] & E & I). injection E as <- <-. apply forwards_in in I. destruct I as [I ->]. left. left. apply side_edge_in. exists a. split; [exact I|]. cbn. tauto.
Qed.
(** The sides alone leave the outlines at the foot and at the top open. *)
Lemma sides_surface n : 3 <= n -> closed_surface (flat_map (side_edges n) (steps n) ++ map swap (top_outline n) ++ bottom_outline n).
Proof.
  intros N. split.
  - assert (FN : NoDup (forwards n)).
    { unfold forwards. apply FinFun.Injective_map_NoDup; [intros a b E; congruence|]. unfold steps. apply FinFun.Injective_map_NoDup; [intros x y; apply Nat2Z.inj|apply seq_NoDup]. }
    apply NoDup_app_disjoint; [apply sides_once, N| |].
    + apply NoDup_app_disjoint.
      * unfold top_outline. rewrite map_map. apply FinFun.Injective_map_NoDup; [intros [a b] [c d] E; unfold between, swap in E; cbn in E; congruence|exact FN].
      * unfold bottom_outline. apply FinFun.Injective_map_NoDup; [intros [a b] [c d] E; unfold between in E; cbn in E; congruence|exact FN].
      * intros e I J. unfold top_outline in I. rewrite map_map in I. apply in_map_iff in I, J. destruct I as (x & <- & _). destruct J as (y & E & _). discriminate.
    + intros e I J. apply side_edge_in in I. destruct I as (i & I & K). destruct (next_next n i N I) as [I1 I2]. unfold top_outline in J. rewrite map_map in J. apply in_app_or in J.
      destruct J as [J|J]; apply in_map_iff in J; destruct J as ([a b] & <- & J); apply forwards_in in J; destruct J as [J ->]; unfold between, swap, side_edges in K; cbn in K;
        repeat (destruct K as [K|K]; [try discriminate; injection K; intros; subst|]); try contradiction; congruence.
  - assert (T : forall e, In e (map swap (top_outline n)) <-> exists i, 0 <= i < n /\ e = (Top (next n i), Top i)).
    { intros e. unfold top_outline. rewrite map_map, in_map_iff. split.
      - intros ([a b] & <- & I). apply forwards_in in I. destruct I as [I ->]. exists a. auto.
      - intros (i & I & ->). exists (i, next n i). split; [reflexivity|]. apply forwards_in. auto. }
    assert (BO : forall e, In e (bottom_outline n) <-> exists i, 0 <= i < n /\ e = (Bottom i, Bottom (next n i))).
    { intros e. unfold bottom_outline. rewrite in_map_iff. split.
      - intros ([a b] & <- & I). apply forwards_in in I. destruct I as [I ->]. exists a. auto.
      - intros (i & I & ->). exists (i, next n i). split; [reflexivity|]. apply forwards_in. auto. }
    intros p q I. rewrite !in_app_iff, T, BO, side_edge_in in *. destruct I as [(i & I & K)|[(i & I & K)|(i & I & K)]].
    + unfold side_edges in K. cbn in K. destruct K as [K|[K|[K|[K|[K|[K|[]]]]]]]; injection K as <- <-.
      * left. destruct (previous n i I) as (j & J & <-). exists j. split; [exact J|]. cbn. tauto.
      * right. left. eauto.
      * left. exists i. split; [exact I|]. cbn. tauto.
      * left. exists i. split; [exact I|]. cbn. tauto.
      * left. exists (next n i). split; [apply next_range, I|]. cbn. tauto.
      * right. right. eauto.
    + injection K as -> ->. left. exists i. split; [exact I|]. cbn. tauto.
    + injection K as -> ->. left. exists i. split; [exact I|]. cbn. tauto.
Qed.
Lemma wall_twice n fs : 3 <= n -> (forall e, In e (forwards n) -> In e (edges fs)) -> ~ NoDup (flat_map (side_edges n) (steps n) ++ map (between Top) (edges fs)).
Proof.
  intros N B ND. assert (I : In (Top 0, Top (next n 0)) (flat_map (side_edges n) (steps n))) by (apply side_edge_in; exists 0; split; [lia|]; cbn; tauto).
  assert (J : In (Top 0, Top (next n 0)) (map (between Top) (edges fs))) by (apply in_map_iff; exists (0, next n 0); split; [reflexivity|]; apply B, forwards_in; split; [lia|reflexivity]).
  apply in_split in I. destruct I as (l1 & l2 & E). rewrite E in ND. rewrite <- app_assoc in ND. cbn [app] in ND. apply NoDup_remove_2 in ND. apply ND. rewrite !in_app_iff. tauto.
Qed.
(** The triangles of the top, when all were found *)
Lemma top_filled points fs : triangulate_wall points = Ok fs -> 3 <= zlen points -> zlen fs = zlen points - 2 ->
  NoDup (edges fs) /\
  if lt32 f32_zero (signed_area points) then (forall e, In e (forwards (zlen points)) -> In e (edges fs))
  else (forall e, In e (forwards (zlen points)) -> ~ In e (edges fs)) /\ exists ds, Permutation (edges fs) (map swap (forwards (zlen points)) ++ ds ++ map swap ds).
Proof.
  intros H N C. unfold triangulate_wall in H. cbv zeta in H. unfold zlen in *. replace (List.length points <? 3)%nat with false in H by lia.
  destruct (clip_filled _ (lt32 f32_zero (signed_area points)) (List.length points) fs ltac:(lia) H ltac:(lia)) as (ds & _ & P).
  destruct (poly_facts (lt32 f32_zero (signed_area points)) (List.length points)) as (ND & L & _).
  destruct (clip_once _ _ _ _ H ltac:(rewrite L; lia) ND) as (O & B). split; [exact O|]. rewrite forwards_cycle. destruct (lt32 f32_zero (signed_area points)).
  - intros e I. apply (Permutation_in _ (Permutation_sym P)). apply in_or_app. left. rewrite (Permutation_map zpair (cycle_rev (seq 0 (List.length points)))).
    replace (map zpair (map swap (cycle (seq 0 (List.length points))))) with (map swap (map zpair (cycle (seq 0 (List.length points))))) by (rewrite !map_map; reflexivity). rewrite swap_swap. exact I.
  - split; [|exists ds; exact P]. intros e I. apply in_map_iff in I. destruct I as (e' & <- & I). apply B, I.
Qed.

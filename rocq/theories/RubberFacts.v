(** Lemmas about tubes: rubbers and wires. *)
From Verif Require Import Base Text Json Image Sound Quantize ColorText Cfb JsonFloat Mesh SpecMesh Browser Common ItemRubber Builtin SpecBuiltin BuiltinFacts VpxFacts Polygon SpecPolygon PolygonFacts Smooth SpecSmooth FileSystem FileSystemFacts Walls SpecWalls WallsFacts RubberMesh SpecRubber.
From Coq Require Import Floats.SpecFloat ZifyBool.

(** ** A grid that is closed in one direction, and perhaps in the other *)
Section Tube.
Variable rows segs : Z.
Variable wrapped : bool.
Hypothesis S3 : 3 <= segs.
Definition next_row (i : Z) : Z := if wrapped && (i =? rows - 1) then 0 else i + 1.
Definition next_seg (j : Z) : Z := if j =? segs - 1 then 0 else j + 1.
Definition cell (p : Z * Z) : list ((Z * Z) * (Z * Z)) :=
  let '(i, j) := p in let k := next_row i in let l := next_seg j in
  [((i, j), (i, l)); ((i, l), (k, j)); ((k, j), (i, j)); ((k, l), (k, j)); ((k, j), (i, l)); ((i, l), (k, l))].
Definition cells : list (Z * Z) := flat_map (fun i => map (pair i) (steps segs)) (steps rows).
Lemma cells_in i j : In (i, j) cells <-> 0 <= i < rows /\ 0 <= j < segs.
Proof.
  unfold cells. rewrite in_flat_map. split.
  - intros (x & X & Y). apply in_map_iff in Y. destruct Y as (y & E & Y). injection E as <- <-. apply steps_in in X, Y. auto.
  - intros [X Y]. exists i. split; [apply steps_in, X|]. apply in_map, steps_in, Y.
Qed.
Lemma NoDup_flat {A B} (f : A -> list B) l : NoDup l -> (forall x, In x l -> NoDup (f x)) -> (forall x y e, In x l -> In y l -> In e (f x) -> In e (f y) -> x = y) -> NoDup (flat_map f l).
Proof.
  induction 1 as [|x l NI ND IH]; intros F D; [constructor|]. cbn [flat_map]. apply NoDup_app_disjoint.
  - apply F. left. reflexivity.
  - apply IH; [intros; apply F; right; assumption|]. intros a b e A' B' EA EB. apply (D a b e); try (right; assumption); assumption.
  - intros e E1 E2. apply in_flat_map in E2. destruct E2 as (y & Y & E2). assert (x = y) by (apply (D x y e); [left; reflexivity|right; exact Y|exact E1|exact E2]). subst. contradiction.
Qed.
Lemma cells_nodup : NoDup cells.
Proof.
  apply NoDup_flat; [apply steps_nodup| |].
  - intros i _. apply FinFun.Injective_map_NoDup; [intros a b E; congruence|apply steps_nodup].
  - intros x y e _ _ E1 E2. apply in_map_iff in E1, E2. destruct E1 as (? & <- & _). destruct E2 as (? & E2 & _). congruence.
Qed.
Hypothesis R3 : wrapped = true -> 3 <= rows.
Lemma cell_nodup p : In p cells -> NoDup (cell p).
Proof.
  destruct p as [i j]. intros I. apply cells_in in I. destruct I as [I J]. unfold cell. destruct wrapped eqn:W; [specialize (R3 eq_refl)|clear R3];
  unfold next_row, next_seg; rewrite ?W; cbn [andb]; repeat match goal with |- context [?x =? ?y] => destruct (x =? y) eqn:? end;
  repeat (constructor; [cbn; intros C; repeat destruct C as [C|C]; try contradiction; injection C; lia|]); constructor.
Qed.
Lemma cell_apart p q e : In p cells -> In q cells -> In e (cell p) -> In e (cell q) -> p = q.
Proof.
  destruct p as [i j], q as [i' j']. intros P Q E1 E2. apply cells_in in P, Q. destruct P as [I J], Q as [I' J'].
  assert (X : i = i' /\ j = j'); [|destruct X as [-> ->]; reflexivity].
  assert (N : (wrapped = true -> 3 <= rows) ) by exact R3. clear R3.
  assert (HI : next_row i = i + 1 \/ (3 <= rows /\ i = rows - 1 /\ next_row i = 0)) by (unfold next_row; destruct wrapped; cbn [andb]; [destruct (i =? rows - 1) eqn:?; specialize (N eq_refl); [right|left]; lia|left; reflexivity]).
  assert (HI' : next_row i' = i' + 1 \/ (3 <= rows /\ i' = rows - 1 /\ next_row i' = 0)) by (unfold next_row; destruct wrapped; cbn [andb]; [destruct (i' =? rows - 1) eqn:?; specialize (N eq_refl); [right|left]; lia|left; reflexivity]).
  assert (HE : forall a b, 0 <= a < rows -> 0 <= b < rows -> next_row a = next_row b -> a = b).
  { intros a b A B. unfold next_row. destruct wrapped; cbn [andb]; [|lia]. destruct (a =? rows - 1) eqn:?, (b =? rows - 1) eqn:?; lia. }
  assert (HW : wrapped = false -> next_row i = i + 1 /\ next_row i' = i' + 1) by (intros W; unfold next_row; rewrite W; split; reflexivity).
  assert (HJ : next_seg j = j + 1 /\ j < segs - 1 \/ (j = segs - 1 /\ next_seg j = 0)) by (unfold next_seg; destruct (j =? segs - 1) eqn:?; [right|left]; lia).
  assert (HJ' : next_seg j' = j' + 1 /\ j' < segs - 1 \/ (j' = segs - 1 /\ next_seg j' = 0)) by (unfold next_seg; destruct (j' =? segs - 1) eqn:?; [right|left]; lia).
  assert (HC : wrapped = true -> (next_row i = i + 1 -> i < rows - 1) /\ (next_row i' = i' + 1 -> i' < rows - 1)).
  { intros W. unfold next_row. rewrite W. cbn [andb]. specialize (N W). destruct (i =? rows - 1) eqn:?, (i' =? rows - 1) eqn:?; lia. }
  specialize (HE i i' I I'). unfold cell in E1, E2. revert E1 E2 HE HI HI' HJ HJ' HW HC. generalize (next_row i) (next_row i') (next_seg j) (next_seg j'). intros k k' l l' E1 E2 HE HI HI' HJ HJ' HW HC.
  destruct e as [[a b] [c d]]. destruct wrapped; [clear HW; specialize (HC eq_refl); specialize (N eq_refl)|clear HC; specialize (HW eq_refl)].
  all: repeat (destruct E1 as [E1|E1]); try contradiction; injection E1; clear E1; intros; subst; repeat (destruct E2 as [E2|E2]); try contradiction; injection E2; clear E2; intros; subst; lia.
Qed.
Lemma tube_nodup : NoDup (flat_map cell cells).
Proof. apply NoDup_flat; [exact cells_nodup|exact cell_nodup|exact cell_apart]. Qed.
Lemma seg_before j : 0 <= j < segs -> exists j0, 0 <= j0 < segs /\ next_seg j0 = j.
Proof. intros J. unfold next_seg. destruct (Z.eq_dec j 0) as [->|N]; [exists (segs - 1); rewrite Z.eqb_refl; lia|]. exists (j - 1). destruct (j - 1 =? segs - 1) eqn:?; lia. Qed.
Lemma seg_range j : 0 <= j < segs -> 0 <= next_seg j < segs.
Proof. clear R3 S3. unfold next_seg. destruct (j =? segs - 1) eqn:?; lia. Qed.
Lemma in_cell i j e : 0 <= i < rows -> 0 <= j < segs -> In e (cell (i, j)) -> In e (flat_map cell cells).
Proof. intros I J E. apply in_flat_map. exists (i, j). split; [apply cells_in; auto|exact E]. Qed.
Lemma tube_swap a b : In (a, b) (flat_map cell cells) -> In (b, a) (flat_map cell cells) \/
  (wrapped = false /\ exists j, 0 <= j < segs /\ ((a, b) = ((0, j), (0, next_seg j)) \/ (b, a) = ((rows, j), (rows, next_seg j)))).
Proof.
  intros H. apply in_flat_map in H. destruct H as ([i j] & P & E). apply cells_in in P. destruct P as [I J]. pose proof (seg_range j J) as L. unfold cell in E.
  destruct E as [E|[E|[E|[E|[E|[E|[]]]]]]]; injection E as <- <-.
  - assert (Q : (exists i0, 0 <= i0 < rows /\ next_row i0 = i) \/ (wrapped = false /\ i = 0)).
    { unfold next_row. destruct (Z.eq_dec i 0) as [->|N]; [destruct wrapped eqn:W; [left; exists (rows - 1); rewrite Z.eqb_refl; cbn [andb]; lia|right; auto]|].
      left. exists (i - 1). destruct (i - 1 =? rows - 1) eqn:?; [lia|]. rewrite andb_false_r. lia. }
    destruct Q as [(i0 & I0 & <-)|[W ->]]; [left; apply (in_cell i0 j); [exact I0|exact J|]; cbn; auto 6|right; split; [exact W|]; exists j; auto].
  - left. apply (in_cell i j); [exact I|exact J|]. cbn. auto 6.
  - left. destruct (seg_before j J) as (j0 & J0 & <-). apply (in_cell i j0); [exact I|exact J0|]. cbn. auto 8.
  - destruct (Z_lt_le_dec (next_row i) rows) as [Q|Q].
    + left. apply (in_cell (next_row i) j); [unfold next_row in *; destruct (wrapped && (i =? rows - 1)); lia|exact J|]. left. reflexivity.
    + right. unfold next_row in *. destruct wrapped eqn:W; cbn [andb] in *; [destruct (i =? rows - 1) eqn:?; lia|]. split; [reflexivity|]. exists j. split; [exact J|]. right. replace (i + 1) with rows by lia. reflexivity.
  - left. apply (in_cell i j); [exact I|exact J|]. cbn. auto 6.
  - left. apply (in_cell i (next_seg j)); [exact I|exact L|]. cbn. auto 6.
Qed.
Lemma round_in i e : In e (round segs i) <-> exists j, 0 <= j < segs /\ e = ((i, j), (i, next_seg j)).
Proof. unfold round. rewrite in_map_iff. split; intros (j & A & B); exists j; [split; [apply steps_in, B|symmetry; exact A]|split; [symmetry; exact B|apply steps_in, A]]. Qed.
Lemma round_nodup i : NoDup (round segs i).
Proof. apply FinFun.Injective_map_NoDup; [intros a b E; congruence|apply steps_nodup]. Qed.
(** Closed in both directions *)
Lemma tube_closed : wrapped = true -> closed_surface (flat_map cell cells).
Proof. intros W. split; [exact tube_nodup|]. intros a b H. destruct (tube_swap a b H) as [X|[X _]]; [exact X|congruence]. Qed.
(** Open at both ends *)
Lemma tube_open : wrapped = false -> 0 < rows -> closed_surface (flat_map cell cells ++ map swap (round segs 0) ++ round segs rows).
Proof.
  intros W R. assert (NC : forall i j e, 0 <= j < segs -> ((i = 0 /\ e = ((0, next_seg j), (0, j))) \/ (i = rows /\ e = ((rows, j), (rows, next_seg j)))) -> ~ In e (flat_map cell cells)).
  { intros i j e J E H. apply in_flat_map in H. destruct H as ([i' j'] & P & H). apply cells_in in P. destruct P as [I' J']. unfold cell in H. replace (next_row i') with (i' + 1) in H by (unfold next_row; rewrite W; reflexivity).
    assert (D0 : forall j, 0 <= j < segs -> next_seg (next_seg j) <> j) by (clear -S3; intros j J; unfold next_seg; destruct (j =? segs - 1) eqn:?; repeat match goal with |- context [?x =? ?y] => destruct (x =? y) eqn:? end; lia).
    pose proof (D0 j J) as D. pose proof (D0 j' J') as D'.
    destruct E as [[_ ->]|[_ ->]]; repeat (destruct H as [H|H]); try contradiction; injection H; intros; subst; try lia; congruence. }
  split.
  - apply NoDup_app_disjoint; [exact tube_nodup| |].
    + apply NoDup_app_disjoint; [apply FinFun.Injective_map_NoDup; [intros [a b] [c d] E; unfold swap in E; cbn in E; congruence|apply round_nodup]|apply round_nodup|].
      intros e E1 E2. apply in_map_iff in E1. destruct E1 as (e' & <- & E1). apply round_in in E1, E2. destruct E1 as (j & _ & ->). destruct E2 as (j' & _ & E2). unfold swap in E2. cbn in E2. injection E2. intros. lia.
    + intros e E1 E2. apply in_app_iff in E2. destruct E2 as [E2|E2].
      * apply in_map_iff in E2. destruct E2 as (e' & <- & E2). apply round_in in E2. destruct E2 as (j & J & ->). exact (NC 0 j _ J (or_introl (conj eq_refl eq_refl)) E1).
      * apply round_in in E2. destruct E2 as (j & J & ->). exact (NC rows j _ J (or_intror (conj eq_refl eq_refl)) E1).
  - intros a b H. rewrite !in_app_iff in *. destruct H as [H|[H|H]].
    + destruct (tube_swap a b H) as [X|(_ & j & J & [X|X])]; [left; exact X| |].
      * right. left. apply in_map_iff. exists (a, b). split; [reflexivity|]. rewrite X. apply round_in. eauto.
      * right. right. rewrite X. apply round_in. eauto.
    + left. apply in_map_iff in H. destruct H as (e & E & H). apply round_in in H. destruct H as (j & J & ->). unfold swap in E. cbn in E. injection E as <- <-. apply (in_cell 0 j); [lia|exact J|]. left. reflexivity.
    + left. apply round_in in H. destruct H as (j & J & E). injection E as -> ->. apply (in_cell (rows - 1) j); [lia|exact J|]. unfold cell. replace (next_row (rows - 1)) with rows by (unfold next_row; rewrite W; cbn [andb]; lia). cbn. auto 6.
Qed.
End Tube.

(** ** The triangles as cells *)
Lemma edges_flat_map {A} (f : A -> list face) l : edges (flat_map f l) = flat_map (fun x => edges (f x)) l.
Proof. induction l as [|x l IH]; [reflexivity|]. cbn [flat_map]. rewrite edges_app, IH. reflexivity. Qed.
Lemma map_flat {A B C} (g : B -> C) (f : A -> list B) l : map g (flat_map f l) = flat_map (fun x => map g (f x)) l.
Proof. induction l as [|x l IH]; [reflexivity|]. cbn [flat_map]. rewrite map_app, IH. reflexivity. Qed.
Lemma flat_flat {A B C} (g : B -> list C) (f : A -> list B) l : flat_map g (flat_map f l) = flat_map (fun x => flat_map g (f x)) l.
Proof. induction l as [|x l IH]; [reflexivity|]. cbn [flat_map]. rewrite flat_map_app, IH. reflexivity. Qed.
Lemma flat_ext {A B} (f g : A -> list B) l : (forall x, In x l -> f x = g x) -> flat_map f l = flat_map g l.
Proof. induction l as [|x l IH]; intros H; [reflexivity|]. cbn [flat_map]. rewrite H by (left; reflexivity). rewrite IH by (intros; apply H; right; assumption). reflexivity. Qed.
Lemma on_ring_at segs i j : 0 <= j < segs -> on_ring segs (i * segs + j) = (i, j).
Proof. intros J. unfold on_ring. rewrite (Z.add_comm (i * segs)), Z.div_add, Z.mod_add by lia. rewrite Z.div_small, Z.mod_small by lia. reflexivity. Qed.
Lemma on_ring_first segs j : 0 <= j < segs -> on_ring segs j = (0, j).
Proof. intros J. unfold on_ring. rewrite Z.div_small, Z.mod_small by lia. reflexivity. Qed.
Definition tube_faces (rings segs rows : Z) : list face := flat_map (fun i => flat_map (ring_faces rings segs i) (steps segs)) (steps rows).
Lemma tube_edges rings segs rows (wrapped : bool) : (if wrapped then rows = rings else rows = rings - 1) -> on_rings segs (edges (tube_faces rings segs rows)) = flat_map (cell rows segs wrapped) (cells rows segs).
Proof.
  intros RW. unfold on_rings, tube_faces, cells. rewrite edges_flat_map, map_flat, flat_flat. apply flat_ext. intros i I. apply steps_in in I. rewrite edges_flat_map, map_flat. rewrite flat_map_concat_map, (flat_map_concat_map (cell rows segs wrapped)), map_map. f_equal. apply map_ext_in. intros j J. apply steps_in in J.
  unfold ring_faces, cell. assert (NS : (if negb (j =? segs - 1) then j + 1 else 0) = next_seg segs j) by (unfold next_seg; destruct (j =? segs - 1); reflexivity). rewrite NS. pose proof (seg_range segs j J) as L.
  cbv zeta. unfold edges, between. cbn [flat_map map app f_0 f_1 f_2 fst snd]. rewrite !on_ring_at by assumption.
  assert (NR : on_ring segs (if negb (i =? rings - 1) then (i + 1) * segs + j else j) = (next_row rows wrapped i, j) /\ on_ring segs (if negb (i =? rings - 1) then (i + 1) * segs + next_seg segs j else next_seg segs j) = (next_row rows wrapped i, next_seg segs j)).
  { unfold next_row. destruct wrapped; subst rows; cbn [andb].
    - destruct (i =? rings - 1); cbn [negb]; [rewrite !on_ring_first by assumption|rewrite !on_ring_at by assumption]; auto.
    - replace (i =? rings - 1) with false by lia. cbn [negb]. rewrite !on_ring_at by assumption. auto. }
  destruct NR as [-> ->]. reflexivity.
Qed.
Lemma tube_face_in rings segs rows (wrapped : bool) f : (if wrapped then rows = rings else rows = rings - 1) -> 0 < segs -> In f (tube_faces rings segs rows) -> face_within 0 (rings * segs - 1) f.
Proof.
  intros RW S0 H. apply in_flat_map in H. destruct H as (i & I & H). apply in_flat_map in H. destruct H as (j & J & H). apply steps_in in I, J.
  assert (L : 0 <= (if negb (j =? segs - 1) then j + 1 else 0) < segs) by (destruct (j =? segs - 1) eqn:?; cbn [negb]; lia).
  unfold ring_faces in H. cbv zeta in H. revert L H. generalize (if negb (j =? segs - 1) then j + 1 else 0). intros l L H.
  assert (IR : 0 <= i < rings) by (destruct wrapped; lia).
  assert (B : forall x, 0 <= x < segs -> 0 <= i * segs + x <= rings * segs - 1 /\ 0 <= (if negb (i =? rings - 1) then (i + 1) * segs + x else x) <= rings * segs - 1).
  { intros x X. split; [nia|]. destruct (i =? rings - 1) eqn:?; cbn [negb]; nia. }
  pose proof (B j J) as [B1 B2]. pose proof (B l L) as [B3 B4]. destruct H as [<-|[<-|[]]]; unfold face_within; cbn [f_0 f_1 f_2]; lia.
Qed.
Lemma flat_map_constant_length {A B} (f : A -> list B) l n : (forall x, In x l -> List.length (f x) = n) -> List.length (flat_map f l) = (List.length l * n)%nat.
Proof. induction l as [|x l IH]; intros H; [reflexivity|]. cbn [flat_map List.length]. rewrite app_length, H, IH by (intros; try apply H; cbn; auto). lia. Qed.
Lemma tube_face_count rings segs rows : 0 <= rows -> 0 <= segs -> zlen (tube_faces rings segs rows) = 2 * (rows * segs).
Proof.
  intros R S. unfold zlen, tube_faces. rewrite (flat_map_constant_length _ _ (2 * Z.to_nat segs)%nat); [unfold steps; rewrite map_length, seq_length; nia|].
  intros i _. rewrite (flat_map_constant_length _ _ 2%nat); [unfold steps; rewrite map_length, seq_length; lia|]. reflexivity.
Qed.
Lemma tube_distinct rings segs rows (wrapped : bool) f : (if wrapped then rows = rings /\ 2 <= rings else rows = rings - 1) -> 2 <= segs -> In f (tube_faces rings segs rows) -> distinct_corners f.
Proof.
  intros RW S2 H. apply in_flat_map in H. destruct H as (i & I & H). apply in_flat_map in H. destruct H as (j & J & H). apply steps_in in I, J.
  assert (L : 0 <= (if negb (j =? segs - 1) then j + 1 else 0) < segs /\ (if negb (j =? segs - 1) then j + 1 else 0) <> j) by (destruct (j =? segs - 1) eqn:?; cbn [negb]; lia).
  unfold ring_faces in H. cbv zeta in H. revert L H. generalize (if negb (j =? segs - 1) then j + 1 else 0). intros l L H.
  assert (IR : 0 <= i < rings) by (destruct wrapped; lia). assert (R2 : i = rings - 1 -> 0 < i) by (destruct wrapped; lia).
  destruct H as [<-|[<-|[]]]; unfold distinct_corners; cbn [f_0 f_1 f_2]; destruct (i =? rings - 1) eqn:?; cbn [negb]; repeat split; nia.
Qed.

(** ** Normals *)
Definition without_normal (v : Vtx) : Vtx := set_normal vec_zero v.
Lemma set_nth_map {A B} (g : A -> B) i x (l : list A) : (forall y, nth_error l i = Some y -> g x = g y) -> map g (set_nth i x l) = map g l.
Proof. revert i. induction l as [|y l IH]; intros [|i] H; try reflexivity; cbn [set_nth map]; [rewrite (H y eq_refl); reflexivity|]. rewrite IH; [reflexivity|]. exact H. Qed.
Lemma update_map {A B} (g : A -> B) i f (l : list A) : (forall y, g (f y) = g y) -> map g (update_nth i f l) = map g l.
Proof. intros H. unfold update_nth. destruct (nth_error l i) as [x|] eqn:E; [|reflexivity]. apply set_nth_map. intros y Y. rewrite Y in E. injection E as <-. apply H. Qed.
Lemma update_len {A} i f (l : list A) : List.length (update_nth i f l) = List.length l.
Proof. unfold update_nth. destruct (nth_error l i); [apply length_set_nth|reflexivity]. Qed.
(** Only the normals change *)
Lemma normals_only vs fs : map without_normal (compute_normals vs fs) = map without_normal vs.
Proof.
  unfold compute_normals. rewrite map_map. rewrite (map_ext (fun x => without_normal (final_normal x)) without_normal) by (intros v; unfold final_normal; destruct (lt32 _ _); reflexivity).
  assert (F : forall fs l, map without_normal (fold_left add_face fs l) = map without_normal l).
  { clear. induction fs as [|f fs IH]; intros l; [reflexivity|]. cbn [fold_left]. rewrite IH. unfold add_face. cbv zeta. destruct (nth_error l _); [|reflexivity]. destruct (nth_error l _); [|reflexivity]. destruct (nth_error l _); [|reflexivity].
    rewrite !update_map by reflexivity. reflexivity. }
  rewrite F, map_map. apply map_ext. reflexivity.
Qed.
Lemma normals_len vs fs : zlen (compute_normals vs fs) = zlen vs.
Proof. pose proof (f_equal (@List.length Vtx) (normals_only vs fs)) as H. rewrite !map_length in H. unfold zlen. lia. Qed.

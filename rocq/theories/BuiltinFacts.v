(** Built-in meshes: the shape of the surface and the numbers. *)
From Coq Require Import Floats.SpecFloat ZifyBool Permutation.
From Verif Require Import Base Text Image Sound Quantize ColorText JsonFloat Cfb Mesh SpecMesh SpecColor Common BaseFacts BiffFacts CommonFacts ColorFacts FlipFacts MeshFacts ObjFacts ObjRoundTrip
  Browser SpecBrowser BrowserFacts Builtin SpecBuiltin.

(** ** The steps around the ring *)
Lemma steps_in n i : In i (steps n) <-> 0 <= i < n.
Proof.
  unfold steps. rewrite in_map_iff. split.
  - intros (k & <- & I). apply in_seq in I. lia.
  - intros H. exists (Z.to_nat i). split; [lia|]. apply in_seq. lia.
Qed.
Lemma steps_nodup n : NoDup (steps n).
Proof. unfold steps. apply FinFun.Injective_map_NoDup; [intros a b E; lia|apply seq_NoDup]. Qed.
Lemma steps_len n : 0 <= n -> zlen (steps n) = n.
Proof. intros H. unfold zlen, steps. rewrite map_length, seq_length. lia. Qed.
Lemma steps_nth n k : 0 <= k < n -> nth_error (steps n) (Z.to_nat k) = Some k.
Proof.
  intros H. unfold steps. rewrite nth_error_map. rewrite (nth_error_nth' _ 0%nat) by (rewrite seq_length; lia). rewrite seq_nth by lia. cbn. f_equal. lia.
Qed.
Lemma nodup_flat_map {A B} (f : A -> list B) l : NoDup l -> (forall a, In a l -> NoDup (f a)) ->
  (forall a b x, In a l -> In b l -> In x (f a) -> In x (f b) -> a = b) -> NoDup (flat_map f l).
Proof.
  induction l as [|a l IH]; intros N F D; [constructor|]. inversion N as [|? ? Na Nl]; subst. cbn [flat_map].
  assert (NF : NoDup (flat_map f l)).
  { apply IH; [exact Nl| |]; [intros b I; apply F; right; exact I|]. intros b c x Ib Ic. apply D; right; assumption. }
  pose proof (F a (or_introl eq_refl)) as Fa.
  assert (DJ : forall x, In x (f a) -> ~ In x (flat_map f l)).
  { intros x I J. apply in_flat_map in J. destruct J as (b & Ib & J). rewrite (D a b x (or_introl eq_refl) (or_intror Ib) I J) in Na. exact (Na Ib). }
  clear IH F D N Na Nl. induction (f a) as [|y m IH]; [exact NF|]. inversion Fa as [|? ? Ny Nm]; subst. cbn [app]. constructor.
  - rewrite in_app_iff. intros [I|I]; [exact (Ny I)|]. exact (DJ y (or_introl eq_refl) I).
  - apply IH; [exact Nm|]. intros x I. apply DJ. right. exact I.
Qed.

(** ** The surface *)
Definition next (n i : Z) : Z := if i =? n - 1 then 0 else i + 1.
Definition side_edges (n i : Z) : list (place * place) :=
  let j := next n i in
  [(TopCentre, Top j); (Top j, Top i); (Top i, TopCentre); (BottomCentre, Bottom i); (Bottom i, Bottom j); (Bottom j, BottomCentre);
   (Top j, Bottom i); (Bottom i, Top i); (Top i, Top j); (Top j, Bottom j); (Bottom j, Bottom i); (Bottom i, Top j)].
Lemma place_top n k : 3 <= n -> 0 <= k < n -> place_of n (k + 1) = Top k.
Proof. intros. unfold place_of. replace (k + 1 =? 0) with false by lia. replace (k + 1 <? n + 1) with true by lia. f_equal. lia. Qed.
Lemma place_bottom n k : 3 <= n -> 0 <= k < n -> place_of n (n + 2 + k) = Bottom k.
Proof.
  intros. unfold place_of. replace (n + 2 + k =? 0) with false by lia. replace (n + 2 + k <? n + 1) with false by lia.
  replace (n + 2 + k =? n + 1) with false by lia. replace (n + 2 + k <? 2 * n + 2) with true by lia. f_equal. lia.
Qed.
Lemma place_side_top n k : 3 <= n -> 0 <= k < n -> place_of n (2 * n + 2 + k) = Top k.
Proof.
  intros. unfold place_of. replace (2 * n + 2 + k =? 0) with false by lia. replace (2 * n + 2 + k <? n + 1) with false by lia.
  replace (2 * n + 2 + k =? n + 1) with false by lia. replace (2 * n + 2 + k <? 2 * n + 2) with false by lia.
  replace (2 * n + 2 + k <? 3 * n + 2) with true by lia. f_equal. lia.
Qed.
Lemma place_side_bottom n k : 3 <= n -> 0 <= k < n -> place_of n (3 * n + 2 + k) = Bottom k.
Proof.
  intros. unfold place_of. replace (3 * n + 2 + k =? 0) with false by lia. replace (3 * n + 2 + k <? n + 1) with false by lia.
  replace (3 * n + 2 + k =? n + 1) with false by lia. replace (3 * n + 2 + k <? 2 * n + 2) with false by lia.
  replace (3 * n + 2 + k <? 3 * n + 2) with false by lia. f_equal. lia.
Qed.
Lemma place_bottom_centre n : 3 <= n -> place_of n (n + 1) = BottomCentre.
Proof. intros. unfold place_of. replace (n + 1 =? 0) with false by lia. replace (n + 1 <? n + 1) with false by lia. rewrite Z.eqb_refl. reflexivity. Qed.
Lemma tmp_next n i : (if i =? n - 1 then 1 else i + 2) = next n i + 1.
Proof. unfold next. destruct (i =? n - 1); lia. Qed.
Lemma next_range n i : 0 <= i < n -> 0 <= next n i < n.
Proof. unfold next. destruct (i =? n - 1) eqn:E; lia. Qed.
Lemma side_places n i : 3 <= n -> 0 <= i < n -> map (places n) (edges (builtin_faces n false i)) = side_edges n i.
Proof.
  intros N H. pose proof (next_range n i H) as J. unfold builtin_faces. rewrite tmp_next. cbv zeta. cbn [app].
  replace (n + (next n i + 1 + 1)) with (n + 2 + next n i) by lia. replace (2 * n + (next n i + 1 + 1)) with (2 * n + 2 + next n i) by lia.
  replace (3 * n + (next n i + 1 + 1)) with (3 * n + 2 + next n i) by lia.
  unfold edges. cbn [flat_map app f_0 f_1 f_2 map]. unfold places. cbn [fst snd].
  rewrite !place_top, !place_bottom, !place_side_top, !place_side_bottom, !place_bottom_centre by assumption. reflexivity.
Qed.
Lemma all_places n : 3 <= n -> map (places n) (edges (flat_map (builtin_faces n false) (steps n))) = flat_map (side_edges n) (steps n).
Proof.
  intros N. assert (H : forall i, In i (steps n) -> 0 <= i < n) by (intros i; apply steps_in). revert H. generalize (steps n).
  induction l as [|i l IH]; intros H; [reflexivity|]. cbn [flat_map]. unfold edges in *. rewrite flat_map_app, map_app, IH by (intros; apply H; right; assumption).
  f_equal. apply side_places; [exact N|]. apply H. left. reflexivity.
Qed.
Lemma next_inj n i j : 0 <= i < n -> 0 <= j < n -> next n i = next n j -> i = j.
Proof. unfold next. destruct (i =? n - 1) eqn:E, (j =? n - 1) eqn:F; lia. Qed.
Lemma next_other n i : 3 <= n -> 0 <= i < n -> next n i <> i.
Proof. unfold next. destruct (i =? n - 1) eqn:E; lia. Qed.
Lemma next_twice n i : 3 <= n -> 0 <= i < n -> next n (next n i) <> i.
Proof. unfold next. destruct (i =? n - 1) eqn:E; [destruct (0 =? n - 1) eqn:F; lia|destruct (i + 1 =? n - 1) eqn:F; lia]. Qed.
Lemma surface_closed n : 3 <= n -> closed_surface (flat_map (side_edges n) (steps n)).
Proof.
  intros N. split.
  - apply nodup_flat_map; [apply steps_nodup| |].
    + intros i I. apply steps_in in I. pose proof (next_other n i N I). unfold side_edges. cbv zeta.
      repeat (constructor; [cbn [In]; intros X; repeat match type of X with _ \/ _ => destruct X as [X|X] end; try (now destruct (X : False)); congruence|]). constructor.
    + intros i j x I J A B. apply steps_in in I, J. 
      pose proof (next_twice n i N I). pose proof (next_twice n j N J).
      unfold side_edges in A, B. cbv zeta in A, B. cbn [In] in A, B.
      repeat match type of A with _ \/ _ => destruct A as [A|A] end; try (now destruct (A : False)); subst x;
      repeat match type of B with _ \/ _ => destruct B as [B|B] end; try (now destruct (B : False)); try discriminate B;
      injection B; clear B; intros; try congruence; try (apply (next_inj n); congruence).
  - intros a b X. apply in_flat_map in X. destruct X as (i & I & X). apply in_flat_map. apply steps_in in I.
    assert (P : exists k, 0 <= k < n /\ next n k = i).
    { unfold next. destruct (Z.eq_dec i 0) as [->|Q]; [exists (n - 1)|exists (i - 1)]; (split; [lia|]).
      - rewrite Z.eqb_refl. reflexivity.
      - replace (i - 1 =? n - 1) with false by lia. lia. }
    destruct P as (k & K & E). pose proof (next_range n i I) as J.
    unfold side_edges in X. cbv zeta in X. cbn [In] in X.
    assert (D : (a = TopCentre /\ b = Top (next n i)) \/ (a = Bottom (next n i) /\ b = BottomCentre) \/ (a = Top i /\ b = TopCentre) \/ (a = BottomCentre /\ b = Bottom i) \/
      (a = Bottom i /\ b = Top i) \/ (a = Top (next n i) /\ b = Bottom (next n i)) \/ In (b, a) (side_edges n i)).
    { repeat match type of X with _ \/ _ => destruct X as [X|X] end; try (now destruct (X : False)); (injection X; clear X; intros); subst; cbn [In side_edges]; tauto. }
    destruct D as [(-> & ->)|[(-> & ->)|[(-> & ->)|[(-> & ->)|[(-> & ->)|[(-> & ->)|D]]]]]].
    + exists (next n i). split; [apply steps_in; exact J|]. cbn [In side_edges]. tauto.
    + exists (next n i). split; [apply steps_in; exact J|]. cbn [In side_edges]. tauto.
    + exists k. split; [apply steps_in; exact K|]. unfold side_edges. rewrite E. cbn [In]. tauto.
    + exists k. split; [apply steps_in; exact K|]. unfold side_edges. rewrite E. cbn [In]. tauto.
    + exists k. split; [apply steps_in; exact K|]. unfold side_edges. rewrite E. cbn [In]. tauto.
    + exists (next n i). split; [apply steps_in; exact J|]. cbn [In side_edges]. tauto.
    + exists i. split; [apply steps_in; exact I|]. exact D.
Qed.

(** ** The vertices *)
Section Vertices.
Variable sin cos : f32 -> f32.
Notation builtin_vertices := (builtin_vertices sin cos).
Definition site (n : Z) (p : place) : f32 * f32 * f32 :=
  match p with
  | TopCentre => (f32_zero, f32_zero, f32_half) | BottomCentre => (f32_zero, f32_zero, f32_minus_half)
  | Top i => (ring_x sin cos n i, ring_y cos n i, f32_half) | Bottom i => (ring_x sin cos n i, ring_y cos n i, f32_minus_half)
  end.
Lemma vertices_len n : 3 <= n -> zlen (builtin_vertices n) = 4 * n + 2.
Proof.
  intros N. unfold zlen, Builtin.builtin_vertices. cbv zeta. rewrite !app_length, !map_length. pose proof (steps_len n ltac:(lia)) as L. unfold zlen in L. cbn [List.length]. lia.
Qed.
Lemma nth_app_right {A} (l m : list A) k : zlen l <= k -> nth_error (l ++ m) (Z.to_nat k) = nth_error m (Z.to_nat (k - zlen l)).
Proof. intros H. unfold zlen in *. rewrite nth_error_app2 by lia. f_equal. lia. Qed.
Lemma nth_app_left {A} (l m : list A) k : 0 <= k < zlen l -> nth_error (l ++ m) (Z.to_nat k) = nth_error l (Z.to_nat k).
Proof. intros H. unfold zlen in *. apply nth_error_app1. lia. Qed.
Lemma map_steps_len {A} (f : Z -> A) n : 0 <= n -> zlen (map f (steps n)) = n.
Proof. intros H. unfold zlen. rewrite map_length. apply steps_len. exact H. Qed.
Lemma map_steps_nth {A} (f : Z -> A) n k : 0 <= k < n -> nth_error (map f (steps n)) (Z.to_nat k) = Some (f k).
Proof. intros H. rewrite nth_error_map, steps_nth by exact H. reflexivity. Qed.
Lemma vertex_at n k : 3 <= n -> 0 <= k < 4 * n + 2 -> exists v, nth_error (builtin_vertices n) (Z.to_nat k) = Some v /\ position_of v = site n (place_of n k).
Proof.
  intros N H. unfold Builtin.builtin_vertices. cbv zeta.
  destruct (Z.eq_dec k 0) as [->|K0]; [eexists; split; reflexivity|]. rewrite nth_app_right by (change (zlen [_]) with 1; lia). change (zlen [_]) with 1.
  destruct (Z_lt_le_dec k (n + 1)) as [K1|K1].
  { rewrite nth_app_left by (rewrite map_steps_len; lia). rewrite map_steps_nth by lia. eexists. split; [reflexivity|].
    replace (place_of n k) with (Top (k - 1)) by (rewrite <- (place_top n (k - 1)) by lia; f_equal; lia). reflexivity. }
  rewrite nth_app_right by (rewrite map_steps_len; lia). rewrite map_steps_len by lia.
  destruct (Z.eq_dec k (n + 1)) as [->|K2].
  { replace (n + 1 - 1 - n) with 0 by lia. eexists. split; [reflexivity|]. rewrite place_bottom_centre by lia. reflexivity. }
  rewrite nth_app_right by (change (zlen [_]) with 1; lia). change (zlen [_]) with 1.
  destruct (Z_lt_le_dec k (2 * n + 2)) as [K3|K3].
  { rewrite nth_app_left by (rewrite map_steps_len; lia). rewrite map_steps_nth by lia. eexists. split; [reflexivity|].
    replace (place_of n k) with (Bottom (k - 1 - n - 1)) by (rewrite <- (place_bottom n (k - 1 - n - 1)) by lia; f_equal; lia). reflexivity. }
  rewrite nth_app_right by (rewrite map_steps_len; lia). rewrite map_steps_len by lia.
  destruct (Z_lt_le_dec k (3 * n + 2)) as [K4|K4].
  { rewrite nth_app_left by (rewrite map_steps_len; lia). rewrite map_steps_nth by lia. eexists. split; [reflexivity|].
    replace (place_of n k) with (Top (k - 1 - n - 1 - n)) by (rewrite <- (place_side_top n (k - 1 - n - 1 - n)) by lia; f_equal; lia). reflexivity. }
  rewrite nth_app_right by (rewrite map_steps_len; lia). rewrite map_steps_len by lia. rewrite map_steps_nth by lia. eexists. split; [reflexivity|].
  replace (place_of n k) with (Bottom (k - 1 - n - 1 - n - n)) by (rewrite <- (place_side_bottom n (k - 1 - n - 1 - n - n)) by lia; f_equal; lia). reflexivity.
Qed.
(** The vertices of the sides *)
Lemma last_parts {A} (a b : A) r1 r2 r3 n k : zlen r1 = n -> zlen r2 = n -> 2 * n + 2 <= k ->
  nth_error ([a] ++ r1 ++ [b] ++ r2 ++ r3) (Z.to_nat k) = nth_error r3 (Z.to_nat (k - (2 * n + 2))).
Proof.
  intros L1 L2 H. rewrite nth_app_right by (change (zlen [a]) with 1; pose proof (zlen_nonneg r1); lia). change (zlen [a]) with 1. pose proof (zlen_nonneg r1).
  rewrite nth_app_right by lia. rewrite nth_app_right by (change (zlen [b]) with 1; lia). change (zlen [b]) with 1. rewrite nth_app_right by lia. do 2 f_equal. lia.
Qed.
Lemma side_vertex n i : 3 <= n -> 0 <= i < n ->
  exists v w, nth_error (builtin_vertices n) (Z.to_nat (2 * n + 2 + i)) = Some v /\ nth_error (builtin_vertices n) (Z.to_nat (3 * n + 2 + i)) = Some w /\
    v_x v = ring_x sin cos n i /\ v_y v = ring_y cos n i /\ v_nx v = sin (ring_angle n i) /\ v_ny v = cos (ring_angle n i) /\
    v_nx w = v_nx v /\ v_ny w = v_ny v /\ v_x w = v_x v /\ v_y w = v_y v.
Proof.
  intros N H. unfold Builtin.builtin_vertices. cbv zeta.
  rewrite (last_parts _ _ _ _ _ n (2 * n + 2 + i)) by (rewrite ?map_steps_len; lia).
  rewrite (last_parts _ _ _ _ _ n (3 * n + 2 + i)) by (rewrite ?map_steps_len; lia).
  rewrite (nth_app_left _ _ (2 * n + 2 + i - (2 * n + 2))) by (rewrite map_steps_len; lia).
  rewrite (nth_app_right _ _ (3 * n + 2 + i - (2 * n + 2))) by (rewrite map_steps_len; lia). rewrite map_steps_len by lia.
  replace (2 * n + 2 + i - (2 * n + 2)) with i by lia. replace (3 * n + 2 + i - (2 * n + 2) - n) with i by lia.
  rewrite map_steps_nth by lia. rewrite map_steps_nth by lia. do 2 eexists. do 2 (split; [reflexivity|]). cbn [v_x v_y v_nx v_ny]. repeat split.
Qed.
End Vertices.
Lemma faces_good n i inside f : 3 <= n -> 0 <= i < n -> In f (builtin_faces n inside i) -> face_within 0 (4 * n + 1) f /\ distinct_corners f.
Proof.
  intros N H I. pose proof (next_range n i H) as J. pose proof (next_other n i N H) as O. unfold builtin_faces in I. rewrite tmp_next in I. cbv zeta in I.
  apply in_app_or in I. unfold face_within, distinct_corners.
  destruct I as [I|I]; [|destruct inside; [|destruct I]]; cbn [In] in I; repeat match type of I with _ \/ _ => destruct I as [I|I] end; try (now destruct (I : False)); subst f; cbn [f_0 f_1 f_2]; lia.
Qed.
Lemma vertex_used n k inside : 3 <= n -> 0 <= k < 4 * n + 2 -> Exists (fun f => uses f k) (flat_map (builtin_faces n inside) (steps n)).
Proof.
  intros N H. rewrite Exists_exists.
  assert (U : exists i, 0 <= i < n /\ exists f, In f (builtin_faces n false i) /\ uses f k).
  { unfold builtin_faces, uses. cbn [app In].
    destruct (Z.eq_dec k 0) as [->|K0]; [exists 0; split; [lia|]; eexists; split; [left; reflexivity|]; cbn; lia|].
    destruct (Z_lt_le_dec k (n + 1)); [exists (k - 1); split; [lia|]; eexists; split; [left; reflexivity|]; cbn; lia|].
    destruct (Z.eq_dec k (n + 1)); [exists 0; split; [lia|]; eexists; split; [right; left; reflexivity|]; cbn; lia|].
    destruct (Z_lt_le_dec k (2 * n + 2)); [exists (k - (n + 2)); split; [lia|]; eexists; split; [right; left; reflexivity|]; cbn; lia|].
    destruct (Z_lt_le_dec k (3 * n + 2)); [exists (k - (2 * n + 2)); split; [lia|]; eexists; split; [right; right; left; reflexivity|]; cbn; lia|].
    exists (k - (3 * n + 2)); split; [lia|]; eexists; split; [right; right; left; reflexivity|]; cbn; lia. }
  destruct U as (i & I & f & F & U). exists f. split; [|exact U]. apply in_flat_map. exists i. split; [apply steps_in; exact I|].
  unfold builtin_faces in *. cbv zeta in *. apply in_or_app. left. rewrite app_nil_r in F. exact F.
Qed.
Lemma inside_turned n l : Permutation (flat_map (builtin_faces n true) l) (flat_map (builtin_faces n false) l ++ map turned (flat_map (builtin_faces n false) l)).
Proof.
  induction l as [|i l IH]; [reflexivity|]. cbn [flat_map].
  assert (E : builtin_faces n true i = builtin_faces n false i ++ map turned (builtin_faces n false i)) by reflexivity.
  rewrite E, map_app, <- !app_assoc. apply Permutation_app_head. rewrite IH. rewrite !app_assoc. apply Permutation_app_tail. apply Permutation_app_comm.
Qed.
Lemma faces_len n inside : 0 <= n -> zlen (flat_map (builtin_faces n inside) (steps n)) = (if inside then 8 else 4) * n.
Proof.
  intros N. transitivity ((if inside then 8 else 4) * zlen (steps n)); [|rewrite steps_len by exact N; reflexivity].
  generalize (steps n). intros l. unfold zlen. induction l as [|i l IH]; [destruct inside; reflexivity|].
  cbn [flat_map]. rewrite app_length. unfold builtin_faces at 1. cbv zeta. rewrite app_length. destruct inside; cbn [List.length] in *; lia.
Qed.


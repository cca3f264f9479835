(** Lemmas about meshes of plungers. *)
From Verif Require Import Base Text Json Image Sound Quantize ColorText Cfb JsonFloat Mesh SpecMesh Browser Common Enums ItemPlunger Builtin SpecBuiltin BuiltinFacts Polygon SpecPolygon Smooth SpecSmooth SpecWalls RubberMesh SpecRubber RubberFacts SpecRamps RampFacts Plungers SpecPlungers.
From Coq Require Import Floats.SpecFloat ZifyBool Permutation Sorted.

(** ** Results *)
Lemma each_ok {A B} (f : A -> res (list B)) g l : (forall x, In x l -> f x = Ok (g x)) -> each f l = Ok (flat_map g l).
Proof. induction l as [|x l IH]; intros H; [reflexivity|]. cbn [each flat_map]. rewrite H by (left; reflexivity). rewrite IH by (intros; apply H; right; assumption). reflexivity. Qed.
Lemma each_in {A B} (f : A -> res (list B)) l r x : each f l = Ok r -> In x l -> exists y, f x = Ok y.
Proof.
  revert r. induction l as [|a l IH]; intros r E I; [destruct I|]. cbn [each] in E. destruct (f a) as [y|] eqn:F; cbn [rbind] in E; [|discriminate]. destruct (each f l) as [z|] eqn:G; cbn [rbind] in E; [|discriminate].
  destruct I as [->|I]; [exists y; exact F|apply (IH z eq_refl I)].
Qed.
Lemma add16_ok c a b : a + b < 65536 -> add16 c a b = Ok (a + b).
Proof. intros H. unfold add16. replace (a + b <? 65536) with true by lia. reflexivity. Qed.
Lemma add16_inv a b x : add16 true a b = Ok x -> a + b < 65536 /\ x = a + b.
Proof. unfold add16. destruct (a + b <? 65536) eqn:E; intros [= <-]; lia. Qed.

(** ** Triangles *)
Definition strip_cell (base i : Z) : list face :=
  let l := next_seg 16 i in [mkFace (base + i) (base + 16 + i) (base + l); mkFace (base + l) (base + 16 + i) (base + 16 + l)].
Definition strip (base : Z) : list face := flat_map (strip_cell base) (steps 16).
Definition cap_cell (base : Z) (flip : bool) (i : Z) : list face :=
  let i1 := base + 1 + i in let i2 := base + 1 + next_seg 16 i in [if flip then mkFace base i2 i1 else mkFace base i1 i2].
Definition cap (base : Z) (flip : bool) : list face := flat_map (cap_cell base flip) (steps 16).
Definition coil_cell (i j : Z) : list face :=
  let k := next_seg 8 j in [mkFace (8 * i + j) (8 * i + k) (8 * (i + 1) + j); mkFace (8 * i + k) (8 * (i + 1) + k) (8 * (i + 1) + j)].
Lemma next_mod n i : 0 <= i < n -> (i + 1) mod n = next_seg n i.
Proof. intros H. unfold next_seg. destruct (i =? n - 1) eqn:E; [replace (i + 1) with n by lia; apply Z.mod_same; lia|apply Z.mod_small; lia]. Qed.
Lemma next_range n i : 0 <= i < n -> 0 <= next_seg n i < n /\ (2 <= n -> next_seg n i <> i).
Proof. intros H. unfold next_seg. destruct (i =? n - 1) eqn:E; lia. Qed.
Lemma connect_faces_ok c base i : 0 <= base -> base + 32 <= 65536 -> 0 <= i < 16 -> connect_faces c base 16 i = Ok (strip_cell base i).
Proof.
  intros B L I. unfold connect_faces. rewrite next_mod by lia. pose proof (proj1 (next_range 16 i ltac:(lia))) as N. rewrite !add16_ok by lia. cbn [rbind]. rewrite !add16_ok by lia. reflexivity.
Qed.
Lemma connect_faces_all c base : 0 <= base -> base + 32 <= 65536 -> each (connect_faces c base 16) (steps 16) = Ok (strip base).
Proof. intros B L. apply each_ok. intros i I. apply steps_in in I. apply connect_faces_ok; lia. Qed.
Lemma cap_faces_all c base flip : 0 <= base -> base + 17 <= 65536 -> each (cap_faces c base 16 flip) (steps 16) = Ok (cap base flip).
Proof.
  intros B L. apply each_ok. intros i I. apply steps_in in I. unfold cap_faces. rewrite next_mod by lia. pose proof (proj1 (next_range 16 i ltac:(lia))) as N. rewrite !add16_ok by lia. cbn [rbind]. rewrite !add16_ok by lia. reflexivity.
Qed.
Lemma coil_faces_ok c i : 0 <= i -> 8 * (i + 1) + 8 <= 65536 -> coil_faces c i = Ok (flat_map (coil_cell i) (steps 8)).
Proof.
  intros I L. unfold coil_faces. cbv zeta. rewrite Z.mod_small by lia. rewrite add16_ok by lia. cbn [rbind]. apply each_ok. intros j J. apply steps_in in J. unfold coil_quad. cbv zeta. rewrite next_mod by lia.
  pose proof (proj1 (next_range 8 j ltac:(lia))) as N. rewrite !add16_ok by lia. cbn [rbind]. unfold coil_cell. cbv zeta. replace (8 * i + 8) with (8 * (i + 1)) by lia. reflexivity.
Qed.
(** ** Rings *)
Lemma zlen_map {A B} (f : A -> B) l : zlen (map f l) = zlen l.
Proof. unfold zlen. rewrite map_length. reflexivity. Qed.
Lemma zlen_app {A} (a b : list A) : zlen (a ++ b) = zlen a + zlen b.
Proof. unfold zlen. rewrite app_length. lia. Qed.
Lemma zlen_combine {A B} (a : list A) (b : list B) : zlen (combine a b) = Z.min (zlen a) (zlen b).
Proof. unfold zlen. rewrite combine_length. lia. Qed.
Lemma combine_nth_error {A B} (a : list A) : forall (b : list B) i x y, nth_error a i = Some x -> nth_error b i = Some y -> nth_error (combine a b) i = Some (x, y).
Proof. induction a as [|u a IH]; intros [|v b] [|i] x y; cbn; try discriminate; [intros [= ->] [= ->]; reflexivity|apply IH]. Qed.
Lemma lathe_len sin cos y zc r : zlen (lathe_ring sin cos y zc r) = 16.
Proof. unfold lathe_ring. rewrite zlen_map. apply steps_len. unfold lathe_points. lia. Qed.
Lemma normals_len zc ring : zlen (ring_normals zc ring) = zlen ring.
Proof. apply zlen_map. Qed.
Lemma wrappers_len n ring normals tv : zlen normals = zlen ring -> zlen (ring_wrappers n ring normals tv) = zlen ring.
Proof. intros E. unfold ring_wrappers. rewrite zlen_map, !zlen_combine, steps_len by (unfold zlen; lia). rewrite E. lia. Qed.
Lemma wrappers_nth n ring normals tv j p m : 0 <= j < zlen ring -> nth_error ring (Z.to_nat j) = Some p -> nth_error normals (Z.to_nat j) = Some m ->
  nth_error (ring_wrappers n ring normals tv) (Z.to_nat j) = Some (new_vertex p m (around_u n j) tv).
Proof.
  intros J P M. unfold ring_wrappers. rewrite nth_error_map, (combine_nth_error _ _ _ j (p, m)); [reflexivity|apply steps_nth, J|]. apply combine_nth_error; assumption.
Qed.
Lemma lathe_nth sin cos y zc r j : 0 <= j < 16 -> exists p, nth_error (lathe_ring sin cos y zc r) (Z.to_nat j) = Some p /\ forall m tu tv, on_circle sin cos zc r y j (w_vertex (new_vertex p m tu tv)).
Proof. intros J. eexists. split; [unfold lathe_ring; apply map_steps_nth; exact J|]. intros m tu tv. split; [reflexivity|]. split; reflexivity. Qed.
(** ** Strips one after the other *)
Lemma connect_ok c m r1 r2 n1 n2 base t1 t2 : zlen r1 = 16 -> 0 <= base -> base + 32 < 65536 ->
  connect_rings c m r1 r2 n1 n2 base t1 t2 = Ok ((fst m ++ ring_wrappers 16 r1 n1 t1 ++ ring_wrappers 16 r2 n2 t2, snd m ++ strip base), base + 32).
Proof. intros R B L. unfold connect_rings. cbv zeta. rewrite R, connect_faces_all by lia. cbn [rbind]. rewrite add16_ok by lia. cbn [rbind]. replace (base + 2 * 16) with (base + 32) by lia. reflexivity. Qed.
Lemma connect_limit m r1 r2 n1 n2 base t1 t2 x : zlen r1 = 16 -> connect_rings true m r1 r2 n1 n2 base t1 t2 = Ok x -> base + 32 < 65536.
Proof.
  intros R. unfold connect_rings. cbv zeta. rewrite R. destruct (each _ _); cbn [rbind]; [|discriminate]. destruct (add16 true base (2 * 16)) as [b|] eqn:E; cbn [rbind]; [|discriminate]. intros _. apply add16_inv in E. lia.
Qed.
Definition ring16 (x : list Vec3 * list Vec3) : Prop := zlen (fst x) = 16 /\ zlen (snd x) = 16.
Definition chain_part (x : ((list Vec3 * list Vec3) * (list Vec3 * list Vec3)) * (f32 * f32)) : list wrapper :=
  let '((a, b), (t1, t2)) := x in ring_wrappers 16 (fst a) (snd a) t1 ++ ring_wrappers 16 (fst b) (snd b) t2.
Definition chain (l : list (list Vec3 * list Vec3)) (tvs : list (f32 * f32)) : list wrapper := flat_map chain_part (combine (combine l (tl l)) tvs).
Lemma steps_succ n : 0 <= n -> steps (n + 1) = 0 :: map (Z.add 1) (steps n).
Proof.
  intros H. unfold steps. replace (Z.to_nat (n + 1)) with (S (Z.to_nat n)) by lia. cbn [seq map]. f_equal. rewrite <- seq_shift, !map_map. apply map_ext. intros. lia.
Qed.
Lemma flat_steps {B} (f : Z -> list B) n : 0 <= n -> flat_map f (steps (n + 1)) = f 0 ++ flat_map (fun i => f (1 + i)) (steps n).
Proof. intros H. rewrite steps_succ by exact H. cbn [flat_map]. f_equal. rewrite !flat_map_concat_map, map_map. reflexivity. Qed.
Lemma connect_all_ok c : forall l m base tvs, Forall ring16 l -> zlen l = zlen tvs + 1 -> 0 <= base -> base + 32 * zlen tvs < 65536 ->
  connect_all c m base l tvs = Ok ((fst m ++ chain l tvs, snd m ++ flat_map (fun s => strip (base + 32 * s)) (steps (zlen tvs))), base + 32 * zlen tvs).
Proof.
  induction l as [|[r1 n1] l IH]; intros m base tvs F L B K; [unfold zlen in L; cbn in L; lia|]. destruct tvs as [|[t1 t2] tvs].
  - replace (zlen []) with 0 by reflexivity. cbn [connect_all]. destruct l as [|x l]; [|unfold zlen in L; cbn in L; lia]. unfold chain. cbn. rewrite !app_nil_r, Z.add_0_r. destruct m; reflexivity.
  - destruct l as [|[r2 n2] l]; [unfold zlen in L; cbn in L; lia|]. inversion F as [|? ? [R1 _] F']; subst. cbn [fst] in R1.
    assert (E : zlen ((t1, t2) :: tvs) = zlen tvs + 1) by (unfold zlen; cbn [List.length]; lia). rewrite E in *. assert (Z0 : 0 <= zlen tvs) by (unfold zlen; lia).
    change (connect_all c m base ((r1, n1) :: (r2, n2) :: l) ((t1, t2) :: tvs)) with (x <~ connect_rings c m r1 r2 n1 n2 base t1 t2 ;; connect_all c (fst x) (snd x) ((r2, n2) :: l) tvs).
    rewrite connect_ok by (assumption || lia). cbn [rbind]. cbn [fst snd]. rewrite IH; [|exact F'|unfold zlen in *; cbn [List.length] in *; lia|lia|lia]. cbn [fst snd].
    rewrite (flat_steps _ _ Z0). unfold chain. cbn [combine tl flat_map chain_part fst snd]. rewrite <- !app_assoc. replace (base + 32 * 0) with base by lia. f_equal. f_equal; [|lia]. f_equal. f_equal. f_equal.
    rewrite !flat_map_concat_map. f_equal. apply map_ext. intros s. f_equal. lia.
Qed.
Lemma connect_all_limit : forall l m base tvs x, Forall ring16 l -> zlen l = zlen tvs + 1 -> base < 65536 -> connect_all true m base l tvs = Ok x -> base + 32 * zlen tvs < 65536.
Proof.
  induction l as [|[r1 n1] l IH]; intros m base tvs x F L B E; [unfold zlen in L; cbn in L; lia|]. destruct tvs as [|[t1 t2] tvs]; [unfold zlen; cbn; lia|].
  destruct l as [|[r2 n2] l]; [unfold zlen in L; cbn in L; lia|]. inversion F as [|? ? [R1 _] F']; subst. cbn [fst] in R1.
  change (connect_all true m base ((r1, n1) :: (r2, n2) :: l) ((t1, t2) :: tvs)) with (x <~ connect_rings true m r1 r2 n1 n2 base t1 t2 ;; connect_all true (fst x) (snd x) ((r2, n2) :: l) tvs) in E.
  destruct (connect_rings true m r1 r2 n1 n2 base t1 t2) as [[m' b']|] eqn:C; cbn [rbind] in E; [|discriminate]. pose proof (connect_limit _ _ _ _ _ _ _ _ _ R1 C) as K.
  destruct (Z_le_gt_dec 0 base) as [P|P].
  - rewrite connect_ok in C by (assumption || lia). injection C as <- <-. apply IH in E; [|exact F'|unfold zlen in *; cbn [List.length] in *; lia|cbn [snd]; lia]. cbn [snd] in E. unfold zlen in *. cbn [List.length]. lia.
  - unfold connect_rings in C. cbv zeta in C. rewrite R1 in C. destruct (each _ _); cbn [rbind] in C; [|discriminate]. destruct (add16 true base (2 * 16)) as [b|] eqn:A; cbn [rbind] in C; [|discriminate]. apply add16_inv in A. injection C as <- <-.
    apply IH in E; [|exact F'|unfold zlen in *; cbn [List.length] in *; lia|cbn [snd]; lia]. cbn [snd] in E. unfold zlen in *. cbn [List.length]. lia.
Qed.
Lemma chain_part_len a b t : ring16 a -> ring16 b -> List.length (chain_part ((a, b), t)) = 32%nat.
Proof.
  intros [A1 A2] [B1 B2]. destruct t as [t1 t2]. cbn [chain_part]. rewrite app_length. pose proof (wrappers_len 16 (fst a) (snd a) t1 ltac:(congruence)). pose proof (wrappers_len 16 (fst b) (snd b) t2 ltac:(congruence)). unfold zlen in *. lia.
Qed.
Lemma combine_in_pairs {A} (P : A -> Prop) l : Forall P l -> forall {B} (ts : list B) x, In x (combine (combine l (tl l)) ts) -> P (fst (fst x)) /\ P (snd (fst x)).
Proof.
  intros F B ts [[a b] t] I. apply in_combine_l in I. pose proof (in_combine_l _ _ _ _ I) as I1. pose proof (in_combine_r _ _ _ _ I) as I2. rewrite Forall_forall in F. split; apply F; cbn [fst snd]; [exact I1|]. destruct l; [destruct I2|right; exact I2].
Qed.
Lemma chain_forall l tvs : Forall ring16 l -> Forall (fun x => List.length x = 32%nat) (map chain_part (combine (combine l (tl l)) tvs)).
Proof. intros F. apply Forall_map, Forall_forall. intros [[a b] t] I. apply (combine_in_pairs _ _ F) in I. destruct I as [A B]. apply chain_part_len; assumption. Qed.
Lemma tl_len {A} (l : list A) : zlen (tl l) = Z.max 0 (zlen l - 1).
Proof. unfold zlen. destruct l; cbn [tl List.length]; lia. Qed.
Lemma chain_len l tvs : Forall ring16 l -> zlen l = zlen tvs + 1 -> zlen (chain l tvs) = 32 * zlen tvs.
Proof.
  intros F L. unfold chain. rewrite flat_map_concat_map. unfold zlen at 1. rewrite (concat_len 32) by (apply chain_forall; exact F). rewrite map_length. pose proof (zlen_combine (combine l (tl l)) tvs) as C. rewrite (zlen_combine l (tl l)), tl_len in C. unfold zlen in *. lia.
Qed.
Lemma nth_tl {A} (l : list A) i : nth_error (tl l) i = nth_error l (S i).
Proof. destruct l; [destruct i; reflexivity|reflexivity]. Qed.
Lemma strips_at s b j : 0 <= b < 2 -> 0 <= j < 16 -> on_strips (32 * s + 16 * b + j) = (s + b, j).
Proof.
  intros B J. unfold on_strips. replace (32 * s + 16 * b + j) with (16 * b + j + s * 32) by lia. rewrite Z.div_add, Z.mod_add by lia. rewrite (Z.div_small (16 * b + j)), (Z.mod_small (16 * b + j) 32) by lia.
  replace (16 * b + j + s * 32) with (j + (b + s * 2) * 16) by lia. replace (16 * b + j) with (j + b * 16) by lia. rewrite Z.div_add, Z.mod_add by lia. rewrite Z.div_small, Z.mod_small by lia. reflexivity.
Qed.
Lemma split32 k : 0 <= k -> exists s b j, k = 32 * s + 16 * b + j /\ 0 <= s /\ 0 <= b < 2 /\ 0 <= j < 16 /\ s = k / 32 /\ (k mod 32 <? 16) = (b =? 0).
Proof.
  intros K. exists (k / 32), ((k mod 32) / 16), (k mod 16). pose proof (Z.div_mod k 32 ltac:(lia)). pose proof (Z.mod_pos_bound k 32 ltac:(lia)). pose proof (Z.mod_pos_bound k 16 ltac:(lia)). pose proof (Z.div_pos k 32 ltac:(lia) ltac:(lia)).
  assert (E : k mod 16 = (k mod 32) mod 16). { rewrite H at 1. replace (32 * (k / 32) + k mod 32) with (k mod 32 + (2 * (k / 32)) * 16) by lia. rewrite Z.mod_add by lia. reflexivity. }
  pose proof (Z.div_mod (k mod 32) 16 ltac:(lia)). assert (0 <= (k mod 32) / 16 < 2) by (split; [apply Z.div_pos; lia|apply Z.div_lt_upper_bound; lia]). repeat split; try lia. 
Qed.
Lemma chain_nth l tvs k : Forall ring16 l -> zlen l = zlen tvs + 1 -> 0 <= k < 32 * zlen tvs ->
  exists ring normals p n t1 t2, nth_error l (Z.to_nat (fst (on_strips k))) = Some (ring, normals) /\ nth_error ring (Z.to_nat (snd (on_strips k))) = Some p /\ nth_error normals (Z.to_nat (snd (on_strips k))) = Some n /\
    nth_error tvs (Z.to_nat (k / 32)) = Some (t1, t2) /\ nth_error (chain l tvs) (Z.to_nat k) = Some (new_vertex p n (around_u 16 (snd (on_strips k))) (if k mod 32 <? 16 then t1 else t2)).
Proof.
  intros F L K. destruct (split32 k) as (s & b & j & E & S0 & B & J & SK & M); [lia|]. rewrite <- SK, M. assert (ST : on_strips k = (s + b, j)) by (rewrite E; apply strips_at; assumption). rewrite ST. cbn [fst snd].
  assert (S1 : s < zlen tvs) by lia.
  destruct (nth_error tvs (Z.to_nat s)) as [[t1 t2]|] eqn:T; [|apply nth_error_None in T; unfold zlen in *; lia].
  destruct (nth_error l (Z.to_nat s)) as [[ra na]|] eqn:A1; [|apply nth_error_None in A1; unfold zlen in *; lia].
  destruct (nth_error l (S (Z.to_nat s))) as [[rb nb]|] eqn:A2; [|apply nth_error_None in A2; unfold zlen in *; lia].
  pose proof (proj1 (Forall_forall _ _) F _ (nth_error_In _ _ A1)) as [U1 U2]. pose proof (proj1 (Forall_forall _ _) F _ (nth_error_In _ _ A2)) as [V1 V2]. cbn [fst snd] in U1, U2, V1, V2.
  assert (C : nth_error (chain l tvs) (Z.to_nat k) = nth_error (ring_wrappers 16 ra na t1 ++ ring_wrappers 16 rb nb t2) (Z.to_nat (16 * b + j))).
  { unfold chain. rewrite flat_map_concat_map. replace (Z.to_nat k) with (Z.to_nat s * 32 + Z.to_nat (16 * b + j))%nat by lia. rewrite concat_nth; [|apply chain_forall, F|lia]. rewrite nth_error_map, (combine_nth_error _ _ _ ((ra, na), (rb, nb)) (t1, t2)); [reflexivity| |exact T].
    apply combine_nth_error; [exact A1|rewrite nth_tl; exact A2]. }
  pose proof (wrappers_len 16 ra na t1 ltac:(congruence)) as W1. rewrite C. destruct (b =? 0) eqn:B0.
  - replace (s + b) with s by lia. replace (16 * b + j) with j by lia.
    destruct (nth_error ra (Z.to_nat j)) as [p|] eqn:P; [|apply nth_error_None in P; unfold zlen in *; lia]. destruct (nth_error na (Z.to_nat j)) as [n|] eqn:N; [|apply nth_error_None in N; unfold zlen in *; lia].
    exists ra, na, p, n, t1, t2. repeat (split; [assumption || reflexivity|]). rewrite nth_error_app1 by (unfold zlen in *; lia). apply wrappers_nth; (assumption || lia).
  - replace (Z.to_nat (s + b)) with (S (Z.to_nat s)) by lia.
    destruct (nth_error rb (Z.to_nat j)) as [p|] eqn:P; [|apply nth_error_None in P; unfold zlen in *; lia]. destruct (nth_error nb (Z.to_nat j)) as [n|] eqn:N; [|apply nth_error_None in N; unfold zlen in *; lia].
    exists rb, nb, p, n, t1, t2. repeat (split; [assumption || reflexivity|]). rewrite nth_error_app2 by (unfold zlen in *; lia). replace (Z.to_nat (16 * b + j) - List.length (ring_wrappers 16 ra na t1))%nat with (Z.to_nat j) by (unfold zlen in *; lia). apply wrappers_nth; (assumption || lia).
Qed.

(** ** Surfaces *)
Lemma closed_permutation {A} (l l' : list (A * A)) : Permutation l l' -> closed_surface l -> closed_surface l'.
Proof.
  intros P [N S]. split; [apply (Permutation_NoDup P N)|]. intros a b I. apply (Permutation_in _ P), S, (Permutation_in _ (Permutation_sym P)), I.
Qed.
Lemma closed_back l : closed_surface l -> closed_surface (map back l).
Proof.
  intros [N S]. split; [apply FinFun.Injective_map_NoDup; [intros [a b] [c d] E; unfold back in E; cbn in E; congruence|exact N]|]. intros a b I. apply in_map_iff in I. destruct I as ([x y] & E & I). unfold back in E. cbn in E. injection E as -> ->.
  apply in_map_iff. exists (a, b). split; [reflexivity|]. apply S, I.
Qed.
Lemma back_back l : map back (map back l) = l.
Proof. rewrite map_map. rewrite <- (map_id l) at 2. apply map_ext. intros [a b]. reflexivity. Qed.
Lemma flat_permutation {A B} (f g : A -> list B) l : (forall x, In x l -> Permutation (f x) (g x)) -> Permutation (flat_map f l) (flat_map g l).
Proof. induction l as [|x l IH]; intros H; [constructor|]. cbn [flat_map]. apply Permutation_app; [apply H; left; reflexivity|apply IH; intros; apply H; right; assumption]. Qed.
Definition strips (n : Z) : list face := flat_map (fun s => strip (32 * s)) (steps n).
Lemma strips_cells n : Permutation (map (between on_strips) (edges (strips n))) (map back (flat_map (cell n 16 false) (cells n 16))).
Proof.
  unfold strips, strip, cells. rewrite edges_flat_map, map_flat, flat_flat, map_flat. apply flat_permutation. intros s S. apply steps_in in S. rewrite edges_flat_map, map_flat. rewrite (flat_map_concat_map (cell n 16 false)), map_map, <- flat_map_concat_map, map_flat. apply flat_permutation. intros j J. apply steps_in in J.
  unfold strip_cell, cell. cbv zeta. replace (next_row n false s) with (s + 1) by reflexivity. pose proof (proj1 (next_range 16 j J)) as L. unfold edges, between. cbn [flat_map map app f_0 f_1 f_2 fst snd].
  replace (32 * s + j) with (32 * s + 16 * 0 + j) by lia. replace (32 * s + 16 + j) with (32 * s + 16 * 1 + j) by lia. replace (32 * s + next_seg 16 j) with (32 * s + 16 * 0 + next_seg 16 j) by lia. replace (32 * s + 16 + next_seg 16 j) with (32 * s + 16 * 1 + next_seg 16 j) by lia.
  rewrite !strips_at by lia. replace (s + 0) with s by lia. unfold back. cbn [fst snd]. generalize (next_seg 16 j). intros l.
  set (e1 := ((s, j), (s + 1, j))). set (e2 := ((s + 1, j), (s, l))). set (e3 := ((s, l), (s, j))). set (e4 := ((s, l), (s + 1, j))). set (e5 := ((s + 1, j), (s + 1, l))). set (e6 := ((s + 1, l), (s, l))).
  transitivity [e3; e1; e2; e4; e5; e6]; [change ([e1; e2] ++ e3 :: [e4; e5; e6]) with ([e1; e2] ++ e3 :: [e4; e5; e6]); apply (Permutation_sym (Permutation_middle [e1; e2] [e4; e5; e6] e3))|]. apply perm_skip. transitivity [e2; e1; e4; e5; e6]; [apply perm_swap|]. apply perm_skip, perm_skip. apply perm_swap.
Qed.
Lemma strips_open n : 0 < n -> closed_surface (map (between on_strips) (edges (strips n)) ++ round 16 0 ++ round_back 16 n).
Proof.
  intros N. apply (closed_permutation (map back (flat_map (cell n 16 false) (cells n 16) ++ map swap (round 16 0) ++ round 16 n))); [|apply closed_back, tube_open; (lia || reflexivity || discriminate)].
  rewrite !map_app. apply Permutation_app; [apply Permutation_sym, strips_cells|]. apply Permutation_app; [|reflexivity]. change swap with back. rewrite back_back. reflexivity.
Qed.
Lemma coil_cells n : 2 <= n -> Permutation (on_rings 8 (edges (flat_map (fun i => flat_map (coil_cell i) (steps 8)) (steps (n - 1))))) (flat_map (cell (n - 1) 8 false) (cells (n - 1) 8)).
Proof.
  intros N. unfold on_rings, cells. rewrite edges_flat_map, map_flat, flat_flat. apply flat_permutation. intros s S. apply steps_in in S. rewrite edges_flat_map, map_flat. rewrite (flat_map_concat_map (cell (n - 1) 8 false)), map_map, <- flat_map_concat_map. apply flat_permutation. intros j J. apply steps_in in J.
  unfold coil_cell, cell. cbv zeta. replace (next_row (n - 1) false s) with (s + 1) by reflexivity. pose proof (proj1 (next_range 8 j J)) as L. unfold edges, between. cbn [flat_map map app f_0 f_1 f_2 fst snd].
  rewrite !(Z.mul_comm 8). rewrite !on_ring_at by lia. generalize (next_seg 8 j). intros l.
  do 3 apply perm_skip. set (e1 := ((s, l), (s + 1, l))). set (e2 := ((s + 1, l), (s + 1, j))). set (e3 := ((s + 1, j), (s, l))). transitivity [e2; e1; e3]; [apply perm_swap|]. apply perm_skip, perm_swap.
Qed.
Lemma coil_open n : 2 <= n -> closed_surface (on_rings 8 (edges (flat_map (fun i => flat_map (coil_cell i) (steps 8)) (steps (n - 1)))) ++ round_back 8 0 ++ round 8 (n - 1)).
Proof.
  intros N. apply (closed_permutation (flat_map (cell (n - 1) 8 false) (cells (n - 1) 8) ++ map swap (round 8 0) ++ round 8 (n - 1))); [|apply tube_open; (lia || reflexivity || discriminate)].
  apply Permutation_app; [apply Permutation_sym, coil_cells, N|reflexivity].
Qed.
(** Decided *)
Definition edge_eqb (a b : (Z * Z) * (Z * Z)) : bool := let '((a1, a2), (a3, a4)) := a in let '((b1, b2), (b3, b4)) := b in (a1 =? b1) && (a2 =? b2) && (a3 =? b3) && (a4 =? b4).
Lemma edge_eqb_spec a b : edge_eqb a b = true <-> a = b.
Proof. destruct a as [[a1 a2] [a3 a4]], b as [[b1 b2] [b3 b4]]. cbn. rewrite !Bool.andb_true_iff, !Z.eqb_eq. split; [intros [[[-> ->] ->] ->]; reflexivity|intros [= -> -> -> ->]; auto]. Qed.
Fixpoint nodupb (l : list ((Z * Z) * (Z * Z))) : bool := match l with [] => true | x :: r => negb (existsb (edge_eqb x) r) && nodupb r end.
Definition closedb (l : list ((Z * Z) * (Z * Z))) : bool := nodupb l && forallb (fun e => existsb (edge_eqb (back e)) l) l.
Lemma existsb_in x l : existsb (edge_eqb x) l = true <-> In x l.
Proof. rewrite existsb_exists. split; [intros (y & I & E); apply edge_eqb_spec in E; subst; exact I|intros I; exists x; split; [exact I|apply edge_eqb_spec; reflexivity]]. Qed.
Lemma closedb_spec l : closedb l = true -> closed_surface l.
Proof.
  unfold closedb. rewrite Bool.andb_true_iff, forallb_forall. intros [N S]. split.
  - clear S. induction l as [|x l IH]; [constructor|]. cbn [nodupb] in N. apply Bool.andb_true_iff in N. destruct N as [N1 N2]. constructor; [|apply IH, N2]. intros I. apply existsb_in in I. rewrite I in N1. discriminate.
  - intros a b I. specialize (S _ I). apply existsb_in in S. exact S.
Qed.
Definition proper_faces (n : Z) (fs : list face) : Prop := Forall (fun f => face_within 0 (n - 1) f /\ distinct_corners f) fs /\ (forall k, 0 <= k < n -> Exists (fun f => uses f k) fs).
Definition faceb (n : Z) (f : face) : bool :=
  (0 <=? f_0 f) && (f_0 f <? n) && (0 <=? f_1 f) && (f_1 f <? n) && (0 <=? f_2 f) && (f_2 f <? n) && negb (f_0 f =? f_1 f) && negb (f_1 f =? f_2 f) && negb (f_2 f =? f_0 f).
Definition properb (n : Z) (fs : list face) : bool := forallb (faceb n) fs && forallb (fun k => existsb (fun f => (f_0 f =? k) || (f_1 f =? k) || (f_2 f =? k)) fs) (steps n).
Lemma properb_spec n fs : properb n fs = true -> proper_faces n fs.
Proof.
  unfold properb. rewrite Bool.andb_true_iff, !forallb_forall. intros [F U]. split.
  - apply Forall_forall. intros f I. specialize (F f I). unfold faceb in F. unfold face_within, distinct_corners. lia.
  - intros k K. specialize (U k ltac:(apply steps_in; exact K)). apply existsb_exists in U. destruct U as (f & I & E). apply Exists_exists. exists f. split; [exact I|]. unfold uses. lia.
Qed.
Lemma strips_proper n : 0 < n -> proper_faces (32 * n) (strips n).
Proof.
  intros N. split.
  - apply Forall_forall. intros f I. apply in_flat_map in I. destruct I as (s & S & I). apply in_flat_map in I. destruct I as (j & J & I). apply steps_in in S, J. pose proof (next_range 16 j J) as [L1 L2]. specialize (L2 ltac:(lia)). unfold face_within, distinct_corners.
    destruct I as [<-|[<-|[]]]; cbn [f_0 f_1 f_2]; lia.
  - intros k K. destruct (split32 k) as (s & b & j & E & S0 & B & J & _); [lia|]. apply Exists_exists. exists (mkFace (32 * s + j) (32 * s + 16 + j) (32 * s + next_seg 16 j)). split.
    + apply in_flat_map. exists s. split; [apply steps_in; lia|]. apply in_flat_map. exists j. split; [apply steps_in; lia|]. left. reflexivity.
    + unfold uses. cbn [f_0 f_1 f_2]. lia.
Qed.
Lemma coil_proper n : 2 <= n -> proper_faces (8 * n) (flat_map (fun i => flat_map (coil_cell i) (steps 8)) (steps (n - 1))).
Proof.
  intros N. split.
  - apply Forall_forall. intros f I. apply in_flat_map in I. destruct I as (s & S & I). apply in_flat_map in I. destruct I as (j & J & I). apply steps_in in S, J. pose proof (next_range 8 j J) as [L1 L2]. specialize (L2 ltac:(lia)). unfold face_within, distinct_corners.
    destruct I as [<-|[<-|[]]]; cbn [f_0 f_1 f_2]; lia.
  - intros k K. pose proof (Z.div_mod k 8 ltac:(lia)) as D. pose proof (Z.mod_pos_bound k 8 ltac:(lia)) as M. pose proof (Z.div_pos k 8 ltac:(lia) ltac:(lia)) as Q.
    assert (X : exists s, 0 <= s < n - 1 /\ (k = 8 * s + k mod 8 \/ k = 8 * (s + 1) + k mod 8)). { destruct (Z_lt_ge_dec (k / 8) (n - 1)); [exists (k / 8); lia|exists (k / 8 - 1); lia]. }
    destruct X as (s & S & E). revert M E. generalize (k mod 8). intros j J E. apply Exists_exists. exists (mkFace (8 * s + j) (8 * s + next_seg 8 j) (8 * (s + 1) + j)). split.
    + apply in_flat_map. exists s. split; [apply steps_in; lia|]. apply in_flat_map. exists j. split; [apply steps_in; lia|]. left. reflexivity.
    + unfold uses. cbn [f_0 f_1 f_2]. lia.
Qed.
Lemma flat_len {A B} (f : A -> list B) m l : (forall x, In x l -> zlen (f x) = m) -> zlen (flat_map f l) = m * zlen l.
Proof. induction l as [|x l IH]; intros H; [unfold zlen; cbn; lia|]. cbn [flat_map]. rewrite zlen_app, H by (left; reflexivity). rewrite IH by (intros; apply H; right; assumption). unfold zlen. cbn [List.length]. lia. Qed.
Lemma strips_len n : 0 <= n -> zlen (strips n) = 32 * n.
Proof. intros N. unfold strips. rewrite (flat_len _ 32); [rewrite steps_len by exact N; reflexivity|]. intros s _. reflexivity. Qed.
Lemma coil_len n : 2 <= n -> zlen (flat_map (fun i => flat_map (coil_cell i) (steps 8)) (steps (n - 1))) = 16 * (n - 1).
Proof. intros N. rewrite (flat_len _ 16); [rewrite steps_len by lia; reflexivity|]. intros s _. reflexivity. Qed.

Lemma to_uint_nonneg m x : 0 <= m -> 0 <= float_to_uint m x.
Proof.
  intros M. unfold float_to_uint. destruct x as [s|s| |s k e]; try lia; destruct s; try lia. apply Z.min_glb; [exact M|]. destruct (0 <=? e); [apply Z.mul_nonneg_nonneg; [lia|apply Z.pow_nonneg; lia]|].
  destruct (Z.eq_dec (2 ^ (- e)) 0) as [->|Q]; [rewrite Zdiv_0_r; lia|apply Z.div_pos; [lia|pose proof (Z.pow_nonneg 2 (- e) ltac:(lia)); lia]].
Qed.
(** ** The parts *)
Definition disc (cos : f32 -> f32) (ring : list Vec3) (normal : Vec3) (tv : f32) : list wrapper :=
  new_vertex (cap_center ring) normal f32_half tv :: map (fun x => new_vertex (snd x) normal (cap_u cos 16 (fst x)) tv) (combine (steps 16) ring).
Lemma disc_ok cos c m ring flip normal tv : zlen ring = 16 -> zlen (fst m) + 17 <= 65536 -> add_disc_cap cos c m ring flip normal tv = Ok (fst m ++ disc cos ring normal tv, snd m ++ cap (zlen (fst m)) flip).
Proof. intros R L. unfold add_disc_cap. cbv zeta. rewrite R. rewrite Z.mod_small by (unfold zlen in *; lia). rewrite cap_faces_all by (unfold zlen in *; lia). reflexivity. Qed.
Lemma disc_len cos ring normal tv : zlen ring = 16 -> zlen (disc cos ring normal tv) = 17.
Proof. intros R. unfold disc. change (zlen (?x :: ?l)) with (Z.of_nat (S (List.length l))). pose proof (zlen_map (fun x => new_vertex (snd x) normal (cap_u cos 16 (fst x)) tv) (combine (steps 16) ring)) as M. rewrite zlen_combine, steps_len, R in M by lia. unfold zlen in *. lia. Qed.
Lemma disc_nth cos ring normal tv j p : 0 <= j < 16 -> nth_error ring (Z.to_nat j) = Some p -> nth_error (disc cos ring normal tv) (S (Z.to_nat j)) = Some (new_vertex p normal (cap_u cos 16 j) tv).
Proof. intros J P. unfold disc. cbn [nth_error]. rewrite nth_error_map, (combine_nth_error _ _ _ j p); [reflexivity|apply steps_nth, J|exact P]. Qed.
Lemma with_normals_16 zc ring : zlen ring = 16 -> ring16 (with_normals zc ring).
Proof. intros R. split; cbn [fst snd with_normals]; [exact R|rewrite normals_len; exact R]. Qed.

Lemma total_rings p : total_segments p = rings p.
Proof. unfold total_segments, rings, total_turns, turns. generalize (mul32 (add32 (Plunger_spring_loops p) (mul32 (Plunger_spring_end_loops p) f32_two)) (int32 24)). intros x. exact eq_refl. Qed.
Section Parts.
Variable sin cos : f32 -> f32.
Variable parse : rstring -> option f32.
Variable checked : bool.
Variable p : Plunger.
Let points := parse_tip_shape parse (Plunger_tip_shape p).
Let zc := Plunger_width p.
Let zf := mul32 (Plunger_width p) f32_1_25.
Definition flat_rings : list (list Vec3 * list Vec3) := [with_normals zf (lathe_ring sin cos (Plunger_height p) zf (rod_radius p)); with_normals zf (lathe_ring sin cos (neg_f32 (Plunger_stroke p)) zf (rod_radius p))].
Definition flat_vertices : list wrapper :=
  chain flat_rings [(f32_one, f32_zero)] ++ disc cos (lathe_ring sin cos (Plunger_height p) zf (rod_radius p)) up_y f32_one ++ disc cos (lathe_ring sin cos (neg_f32 (Plunger_stroke p)) zf (rod_radius p)) down_y f32_zero.
Definition flat_faces : list face := strips 1 ++ cap 32 false ++ cap 49 true.
Lemma flat_16 : Forall ring16 flat_rings.
Proof. repeat constructor; apply with_normals_16 || idtac; try (rewrite normals_len); apply lathe_len. Qed.
Lemma flat_ok : flat_rod_mesh sin cos checked p = Ok (flat_vertices, flat_faces).
Proof.
  unfold flat_rod_mesh. cbv zeta. fold zf. rewrite connect_ok by (apply lathe_len || lia). cbn [rbind fst snd app].
  set (v := ring_wrappers _ _ _ _ ++ ring_wrappers _ _ _ _). assert (V : v = chain flat_rings [(f32_one, f32_zero)]) by (unfold chain, flat_rings; cbn [combine tl flat_map chain_part fst snd with_normals]; rewrite app_nil_r; reflexivity).
  assert (L : zlen v = 32) by (rewrite V, chain_len; [reflexivity|apply flat_16|reflexivity]).
  rewrite disc_ok by (rewrite ?lathe_len; cbn [fst]; lia). cbn [rbind fst snd]. pose proof (disc_len cos (lathe_ring sin cos (Plunger_height p) zf (rod_radius p)) up_y f32_one (lathe_len _ _ _ _ _)) as D.
  rewrite disc_ok by (rewrite ?lathe_len; cbn [fst]; rewrite ?zlen_app; lia). cbn [fst snd]. rewrite zlen_app, L, D, V. unfold flat_vertices, flat_faces. rewrite <- !app_assoc. reflexivity.
Qed.
Definition rod_ring (i : Z) : list Vec3 := lathe_ring sin cos (rod_y parse p i) zc (rod_radius p).
Definition rod_rings : list (list Vec3 * list Vec3) := map (fun i => with_normals zc (rod_ring i)) (steps 5).
Definition rod_tvs : list (f32 * f32) := map (fun i => (rod_tv i, rod_tv (i + 1))) (steps 4).
Definition rod_vertices : list wrapper := chain rod_rings rod_tvs ++ disc cos (rod_ring 0) up_y f32_0_74.
Definition rod_faces : list face := strips 4 ++ cap 128 false.
Lemma rod_16 : Forall ring16 rod_rings.
Proof. apply Forall_map, Forall_forall. intros i _. apply with_normals_16, lathe_len. Qed.
Lemma rod_ok : rod_mesh sin cos parse checked p = Ok (rod_vertices, rod_faces).
Proof.
  unfold rod_mesh. cbv zeta. fold zc. change (map (fun i => with_normals zc (lathe_ring sin cos (rod_y parse p i) zc (rod_radius p))) (steps 5)) with rod_rings. fold rod_tvs.
  assert (T : zlen rod_tvs = 4) by reflexivity. rewrite connect_all_ok; [|apply rod_16|reflexivity|lia|rewrite T; lia]. cbn [rbind fst snd app]. rewrite T. pose proof (chain_len rod_rings rod_tvs rod_16 eq_refl) as L. rewrite T in L.
  rewrite disc_ok by (rewrite ?lathe_len; cbn [fst]; rewrite ?L; lia). cbn [fst snd]. rewrite L. reflexivity.
Qed.
Let all (n : Vec3) := repeat n (Z.to_nat lathe_points).
Definition ring_radius : f32 := mul32 (mul32 (Plunger_width p) (Plunger_ring_diam p)) f32_half.
Definition ring_row (y r : f32) : list Vec3 := lathe_ring sin cos y zc r.
Let B := ring_bottom parse p.
Let T := ring_top parse p.
Definition ring_vertices : list wrapper :=
  chain [(ring_row B (rod_radius p), all down_y); (ring_row B ring_radius, all down_y)] [(f32_0_26, f32_0_33)] ++
  chain [with_normals zc (ring_row B ring_radius); with_normals zc (ring_row T ring_radius)] [(f32_0_33, f32_0_42)] ++
  chain [(ring_row T ring_radius, all up_y); (ring_row T (rod_radius p), all up_y)] [(f32_0_42, f32_0_49)].
Lemma row_len y r : zlen (ring_row y r) = 16.
Proof. exact (lathe_len sin cos y zc r). Qed.
Lemma all_16 y r n : ring16 (ring_row y r, all n).
Proof. split; [exact (lathe_len sin cos y zc r)|]. change (zlen (repeat n 16) = 16). unfold zlen. rewrite repeat_length. reflexivity. Qed.
Lemma ring_ok : ring_mesh sin cos parse checked p = Ok (ring_vertices, strips 3).
Proof.
  unfold ring_mesh. cbv zeta. fold zc. fold B T. fold ring_radius. fold (ring_row B (rod_radius p)) (ring_row B ring_radius) (ring_row T (rod_radius p)) (ring_row T ring_radius). fold (all down_y) (all up_y).
  rewrite connect_ok by (apply row_len || lia). cbn [rbind fst snd]. rewrite connect_ok by (apply row_len || lia). cbn [rbind fst snd]. rewrite connect_ok by (apply row_len || lia). cbn [rbind fst snd].
  unfold ring_vertices, chain. cbn [combine tl flat_map chain_part fst snd with_normals]. rewrite !app_nil_r, <- !app_assoc. reflexivity.
Qed.
Definition tip_ring (t : TipPoint) : list Vec3 := lathe_ring sin cos (add32 (neg_f32 (Plunger_stroke p)) (tip_y t)) zc (mul32 (Plunger_width p) (tip_r t)).
Definition tip_rings : list (list Vec3 * list Vec3) := map (fun t => with_normals zc (tip_ring t)) points.
Definition tip_tvs : list (f32 * f32) := combine (map (tip_tv (tip_length parse p)) points) (tl (map (tip_tv (tip_length parse p)) points)).
Lemma tip_16 : Forall ring16 tip_rings.
Proof. apply Forall_map, Forall_forall. intros i _. apply with_normals_16, lathe_len. Qed.
Lemma tip_tvs_len : 1 <= zlen points -> zlen tip_rings = zlen tip_tvs + 1 /\ zlen tip_tvs = zlen points - 1.
Proof. intros H. unfold tip_rings, tip_tvs. rewrite zlen_combine, tl_len, !zlen_map. lia. Qed.
Lemma tip_ok : 2 <= zlen points -> zlen points <= 2048 -> tip_mesh sin cos parse checked p = Ok (chain tip_rings tip_tvs, strips (zlen points - 1)).
Proof.
  intros H2 HK. unfold tip_mesh. cbv zeta. fold points. replace (zlen points <? 2) with false by lia. fold zc. change (map (fun t => with_normals zc (lathe_ring sin cos (add32 (neg_f32 (Plunger_stroke p)) (tip_y t)) zc (mul32 zc (tip_r t)))) points) with tip_rings. fold tip_tvs.
  destruct (tip_tvs_len ltac:(lia)) as [L1 L2]. rewrite connect_all_ok; [|apply tip_16|exact L1|lia|lia]. cbn [rbind fst snd app]. rewrite L2. reflexivity.
Qed.
Lemma tip_small : zlen points < 2 -> tip_mesh sin cos parse checked p = Ok ([], []).
Proof. intros H. unfold tip_mesh. cbv zeta. fold points. replace (zlen points <? 2) with true by lia. reflexivity. Qed.
Definition spring_line : list (Z * Vec3 * Vec3) := helix sin cos parse p (steps (rings p)) (ring_top parse p) (dy_end p).
Definition spring_vertices : list wrapper := flat_map (fun h => map (coil_vertex sin cos p h) (steps 8)) spring_line.
Lemma spring_ok : 2 <= rings p -> rings p <= 8192 -> spring_mesh sin cos parse checked p = Ok (spring_vertices, flat_map (fun i => flat_map (coil_cell i) (steps 8)) (steps (rings p - 1))).
Proof.
  intros H2 HK. unfold spring_mesh. cbv zeta. rewrite total_rings. replace (rings p <? 2) with false by lia. rewrite (each_ok _ (fun i => flat_map (coil_cell i) (steps 8))); [cbn [rbind]; unfold spring_vertices, spring_line; exact eq_refl|].
  intros i I. apply steps_in in I. apply coil_faces_ok; lia.
Qed.
Lemma spring_small : rings p < 2 -> spring_mesh sin cos parse checked p = Ok ([], []).
Proof. intros H. unfold spring_mesh. cbv zeta. rewrite total_rings. replace (rings p <? 2) with true by lia. reflexivity. Qed.
Lemma helix_len is : forall y dy, List.length (helix sin cos parse p is y dy) = List.length is.
Proof. induction is as [|i is IH]; intros y dy; [reflexivity|]. cbn [helix List.length]. rewrite IH. reflexivity. Qed.
Lemma rings_nonneg : 0 <= rings p.
Proof. unfold rings. apply to_uint_nonneg. lia. Qed.
Lemma spring_len : zlen spring_vertices = 8 * rings p.
Proof. unfold spring_vertices. rewrite (flat_len _ 8); [|intros h _; rewrite zlen_map; reflexivity]. unfold spring_line, zlen. rewrite helix_len. pose proof rings_nonneg as N. revert N. generalize (rings p). intros n N. pose proof (steps_len n N) as E. unfold zlen in E. rewrite E. reflexivity. Qed.
End Parts.

(** Facts about reading OBJ files: triangulation, and what is read from a written file. *)
From Coq Require Import Floats.SpecFloat ZifyBool.
From Verif Require Import Base Text Image Sound Quantize ColorText JsonFloat Cfb Mesh SpecMesh SpecColor Common BaseFacts BiffFacts CommonFacts ColorFacts FlipFacts MeshFacts.

(** ** Triangulation *)
Lemma resolve_index_spec i n : 0 <= i -> (1 <= i <= n /\ resolve_index i n = Ok (i - 1)) \/ (~ 1 <= i <= n /\ resolve_index i n = Err).
Proof.
  intros H. unfold resolve_index. destruct (i =? 0) eqn:E; [right; split; [lia|reflexivity]|].
  destruct (n <=? i - 1) eqn:E1; [right|left]; (split; [lia|reflexivity]).
Qed.
Lemma resolve_corners_spec np nt nn l : Forall corner_u32 l ->
  (Forall (corner_exists np nt nn) l /\ resolve_corners np nt nn l = Ok (map triple_of l)) \/
  (~ Forall (corner_exists np nt nn) l /\ resolve_corners np nt nn l = Err).
Proof.
  induction l as [|c l IH]; intros H; [left; split; [constructor|reflexivity]|]. inversion H as [|? ? (Hv & Ht & Hn) H2]; subst.
  assert (NO : ~ corner_exists np nt nn c -> ~ Forall (corner_exists np nt nn) (c :: l)) by (intros A B; inversion B; subst; contradiction).
  cbn [resolve_corners].
  destruct (resolve_index_spec (c_v c) np Hv) as [[A1 ->]|[A1 ->]]; cbn [rbind]; [|right; split; [apply NO; unfold corner_exists; tauto|reflexivity]].
  destruct (resolve_index_spec (c_vt c) nt Ht) as [[A2 ->]|[A2 ->]]; cbn [rbind]; [|right; split; [apply NO; unfold corner_exists; tauto|reflexivity]].
  destruct (resolve_index_spec (c_vn c) nn Hn) as [[A3 ->]|[A3 ->]]; cbn [rbind]; [|right; split; [apply NO; unfold corner_exists; tauto|reflexivity]].
  destruct (IH H2) as [[B ->]|[B ->]]; cbn [rbind].
  - left. split; [constructor; [unfold corner_exists; tauto|exact B]|reflexivity].
  - right. split; [intros C; inversion C; contradiction|reflexivity].
Qed.
Lemma fan_nth {A} (d a : A) rest : forall b, fan a b rest =
  map (fun j => (a, nth j (b :: rest) d, nth (S j) (b :: rest) d)) (seq 0 (List.length rest)).
Proof.
  induction rest as [|c rest IH]; intros b; [reflexivity|]. cbn [fan List.length seq map nth]. f_equal.
  rewrite (IH c). rewrite <- seq_shift, map_map. reflexivity.
Qed.
Lemma fan_triangles_nth {A} (d : A) l : fan_triangles l = map (fun j => (nth 0 l d, nth j l d, nth (S j) l d)) (seq 1 (List.length l - 2)).
Proof.
  destruct l as [|a [|b rest]]; [reflexivity..|]. cbn [fan_triangles List.length Nat.sub]. rewrite Nat.sub_0_r.
  rewrite (fan_nth d a rest b). rewrite <- seq_shift, map_map. reflexivity.
Qed.
Definition triples (t : corner * corner * corner) : (Z*Z*Z) * (Z*Z*Z) * (Z*Z*Z) :=
  let '(a, b, c) := t in (triple_of a, triple_of b, triple_of c).
Lemma fan_of_spec (reverse : bool) f : (3 <= List.length f)%nat ->
  fan_triangles (if reverse then rev (map triple_of f) else map triple_of f) = map triples (fan_of reverse f).
Proof.
  intros L. set (d := mkCorner 0 0 0). unfold fan_of. rewrite map_map. rewrite (fan_triangles_nth (triple_of d)).
  assert (EL : List.length (if reverse then rev (map triple_of f) else map triple_of f) = List.length f)
    by (destruct reverse; rewrite ?rev_length, map_length; reflexivity).
  rewrite EL. apply map_ext_in. intros j Hj. apply in_seq in Hj.
  assert (N : forall i, (i < List.length f)%nat -> nth i (if reverse then rev (map triple_of f) else map triple_of f) (triple_of d) = triple_of (corner_at reverse f i)).
  { intros i Hi. unfold corner_at. fold d. destruct reverse.
    - rewrite rev_nth by (rewrite map_length; lia). rewrite map_length, map_nth. do 2 f_equal. lia.
    - apply map_nth. }
  unfold triples. rewrite !N by lia. reflexivity.
Qed.
Lemma triangulate_spec np nt nn reverse faces : Forall (Forall corner_u32) faces ->
  (Forall (good_face np nt nn) faces /\ triangulate np nt nn reverse faces = Ok (map triples (surface reverse faces))) \/
  (~ Forall (good_face np nt nn) faces /\ triangulate np nt nn reverse faces = Err).
Proof.
  induction faces as [|f faces IH]; intros H; [left; split; [constructor|reflexivity]|]. inversion H as [|? ? H1 H2]; subst.
  cbn [triangulate]. destruct (List.length f <? 3)%nat eqn:EL.
  - right. split; [|reflexivity]. intros C; inversion C as [|? ? [C1 _] ?]; subst. lia.
  - destruct (resolve_corners_spec np nt nn f H1) as [[A ->]|[A ->]]; cbn [rbind].
    + destruct (IH H2) as [[B ->]|[B ->]]; cbn [rbind].
      * left. split; [constructor; [split; [lia|exact A]|exact B]|]. unfold surface. cbn [flat_map]. rewrite map_app. f_equal. f_equal.
        apply fan_of_spec. lia.
      * right. split; [|reflexivity]. intros C; inversion C; contradiction.
    + right. split; [|reflexivity]. intros C; inversion C as [|? ? [_ C1] ?]; subst. contradiction.
Qed.

Lemma corner_eqb_eq a b : corner_eqb a b = true <-> a = b.
Proof. destruct a as [[p t] n], b as [[p' t'] n']. unfold corner_eqb. split; [intros H; f_equal; [f_equal|]; lia|intros H; injection H as -> -> ->; lia]. Qed.
Lemma find_corner_some c l : forall k i, find_corner c l k = Some i -> k <= i /\ nth_error l (Z.to_nat (i - k)) = Some c.
Proof.
  induction l as [|d l IH]; intros k i H; [discriminate|]. cbn [find_corner] in H. destruct (corner_eqb c d) eqn:E.
  - injection H as <-. apply corner_eqb_eq in E. subst. rewrite Z.sub_diag. split; [lia|reflexivity].
  - destruct (IH _ _ H) as [A B]. split; [lia|]. replace (Z.to_nat (i - k)) with (S (Z.to_nat (i - (k + 1)))) by lia. exact B.
Qed.
Lemma find_corner_none c l : forall k, find_corner c l k = None -> ~ In c l.
Proof.
  induction l as [|d l IH]; intros k H; [intros []|]. cbn [find_corner] in H. destruct (corner_eqb c d) eqn:E; [discriminate|].
  intros [->|I]; [|exact (IH _ H I)]. rewrite (proj2 (corner_eqb_eq c c) eq_refl) in E. discriminate.
Qed.
Lemma at_index_app {A} (l m : list A) i x : at_index l i = Some x -> at_index (l ++ m) i = Some x.
Proof.
  unfold at_index. destruct (i <? 0); [discriminate|]. intros H. rewrite nth_error_app1; [exact H|]. apply nth_error_Some. rewrite H. discriminate.
Qed.
Lemma at_index_bound {A} (l : list A) i x : at_index l i = Some x -> 0 <= i < zlen l.
Proof.
  unfold at_index. destruct (i <? 0) eqn:E; [discriminate|]. intros H. assert (L : (Z.to_nat i < List.length l)%nat) by (apply nth_error_Some; rewrite H; discriminate).
  unfold zlen. lia.
Qed.
Lemma intern_spec c l : NoDup l -> let (i, l') := intern c l in
  NoDup l' /\ (exists m, l' = l ++ m) /\ at_index l' i = Some c /\ (forall k, zlen l <= k < zlen l' -> k = i).
Proof.
  intros N. unfold intern. destruct (find_corner c l 0) as [i|] eqn:E.
  - apply find_corner_some in E. destruct E as [A B]. rewrite Z.sub_0_r in B. split; [exact N|].
    split; [exists []; symmetry; apply app_nil_r|]. split; [unfold at_index; replace (i <? 0) with false by lia; exact B|intros; lia].
  - apply find_corner_none in E. split; [|split; [exists [c]; reflexivity|split]].
    + apply NoDup_rev in N. rewrite <- (rev_involutive (l ++ [c])). apply NoDup_rev. rewrite rev_app_distr. cbn. constructor; [|exact N].
      rewrite <- in_rev. exact E.
    + unfold at_index. pose proof (zlen_nonneg l). replace (zlen l <? 0) with false by lia.
      rewrite nth_error_app2 by (unfold zlen; lia). unfold zlen. rewrite Nat2Z.id, Nat.sub_diag. reflexivity.
    + intros k. rewrite zlen_app. change (zlen [c]) with 1. lia.
Qed.
Definition known (t : (Z*Z*Z) * (Z*Z*Z) * (Z*Z*Z)) : option (Z*Z*Z) * option (Z*Z*Z) * option (Z*Z*Z) :=
  let '(a, b, c) := t in (Some a, Some b, Some c).
Lemma dedup_spec tris : forall l, NoDup l -> let (l', fs) := dedup l tris in
  NoDup l' /\ (exists m, l' = l ++ m) /\ map (corners_of l') fs = map known tris /\
  (forall k, zlen l <= k < zlen l' -> Exists (fun f => uses f k) fs).
Proof.
  induction tris as [|[[a b] c] tris IH]; intros l N; cbn [dedup].
  - split; [exact N|]. split; [exists []; symmetry; apply app_nil_r|]. split; [reflexivity|intros; lia].
  - pose proof (intern_spec a l N) as S1. destruct (intern a l) as [i l1]. destruct S1 as (N1 & [m1 ->] & A1 & U1).
    pose proof (intern_spec b _ N1) as S2. destruct (intern b _) as [j l2]. destruct S2 as (N2 & [m2 ->] & A2 & U2).
    pose proof (intern_spec c _ N2) as S3. destruct (intern c _) as [k l3]. destruct S3 as (N3 & [m3 ->] & A3 & U3).
    specialize (IH _ N3). destruct (dedup _ tris) as [l4 fs]. destruct IH as (N4 & [m4 ->] & M & U4).
    split; [exact N4|]. split; [exists (m1 ++ m2 ++ m3 ++ m4); rewrite !app_assoc; reflexivity|]. split.
    + cbn [map]. rewrite M. f_equal. unfold corners_of, known. cbn [f_0 f_1 f_2].
      rewrite (at_index_app _ m4 k c A3). rewrite (at_index_app _ m4 j b (at_index_app _ m3 j b A2)).
      rewrite (at_index_app _ m4 i a (at_index_app _ m3 i a (at_index_app _ m2 i a A1))). reflexivity.
    + intros z Hz. destruct (Z.lt_ge_cases z (zlen (((l ++ m1) ++ m2) ++ m3))) as [L|L]; [|right; apply U4; lia].
      left. unfold uses. cbn [f_0 f_1 f_2]. destruct (Z.lt_ge_cases z (zlen ((l ++ m1) ++ m2))) as [L2|L2]; [|right; right; symmetry; apply U3; lia].
      destruct (Z.lt_ge_cases z (zlen (l ++ m1))) as [L1|L1]; [|right; left; symmetry; apply U2; lia]. left. symmetry. apply U1. lia.
Qed.

(** ** Reading lists of results *)
Lemma map_res_ok {A B} (f : A -> res B) (g : A -> B) l : (forall a, In a l -> f a = Ok (g a)) -> map_res f l = Ok (map g l).
Proof.
  induction l as [|a l IH]; intros H; [reflexivity|]. cbn [map_res map]. rewrite (H a (or_introl eq_refl)). cbn [rbind].
  rewrite IH by (intros b Hb; apply H; right; exact Hb). reflexivity.
Qed.
Lemma map_res_nth {A B} (f : A -> res B) l : forall r, map_res f l = Ok r -> List.length r = List.length l /\
  forall i a, nth_error l i = Some a -> exists b, f a = Ok b /\ nth_error r i = Some b.
Proof.
  induction l as [|a l IH]; intros r H; cbn [map_res] in H.
  - injection H as <-. split; [reflexivity|]. intros [|i] b Hb; discriminate.
  - destruct (f a) as [b|] eqn:E; [|discriminate]. cbn [rbind] in H. destruct (map_res f l) as [bs|] eqn:E1; [|discriminate].
    cbn [rbind] in H. injection H as <-. destruct (IH _ eq_refl) as [L N]. split; [cbn; lia|].
    intros [|i] x Hx; cbn in Hx; [injection Hx as <-; exists b; split; [exact E|reflexivity]|]. apply (N i x Hx).
Qed.

Section Reader.
Context {num : Type} (parse64 : num -> option f64).
Notation read_line := (read_line num parse64).
Notation read_lines := (read_lines num parse64).
Notation read_obj := (read_obj num parse64).

Definition reader_ok (r : obj_reader) : Prop :=
  Forall (Forall corner_u32) (r_faces r) /\
  (r_needs_normalize r = false -> Forall (fun f => List.length f = 3%nat /\ Forall (fun c => matched c = true) f) (r_faces r)).
Lemma corner_of_u32 c : corner_u32 (corner_of c).
Proof.
  destruct c as [[v vt] vn]. unfold corner_u32, corner_of, u32_of. cbn [c_v c_vt c_vn].
  destruct vt as [vt|], vn as [vn|]; repeat split; try lia; apply Z.mod_pos_bound; lia.
Qed.
Lemma read_line_ok r l r' : reader_ok r -> read_line r l = Ok r' -> reader_ok r'.
Proof.
  intros [H1 H2] H. destruct l; cbn [Mesh.read_line] in H.
  - injection H as <-. split; assumption.
  - injection H as <-. split; assumption.
  - repeat match type of H with (rbind ?e _) = _ => destruct e; cbn [rbind] in H; [|discriminate] end. injection H as <-. split; assumption.
  - repeat match type of H with (rbind ?e _) = _ => destruct e; cbn [rbind] in H; [|discriminate] end. injection H as <-. split; assumption.
  - repeat match type of H with (rbind ?e _) = _ => destruct e; cbn [rbind] in H; [|discriminate] end. injection H as <-. split; assumption.
  - injection H as <-. split; cbn [r_faces r_needs_normalize].
    + apply Forall_app. split; [exact H1|]. constructor; [|constructor]. apply Forall_forall. intros c Hc. apply in_map_iff in Hc. destruct Hc as (x & <- & _). apply corner_of_u32.
    + intros E. apply orb_false_iff in E. destruct E as [E1 E2]. rewrite negb_false_iff in E2. apply andb_prop in E2. destruct E2 as [E2 E3].
      apply Forall_app. split; [exact (H2 E1)|]. constructor; [|constructor]. split; [rewrite map_length; lia|].
      apply Forall_forall. intros c Hc. rewrite forallb_forall in E3. exact (E3 c Hc).
Qed.
Lemma read_lines_ok ls : forall r r', reader_ok r -> read_lines ls r = Ok r' -> reader_ok r'.
Proof.
  induction ls as [|l ls IH]; intros r r' I H; cbn [Mesh.read_lines] in H; [injection H as <-; exact I|].
  destruct (read_line r l) as [r1|] eqn:E; [|discriminate]. cbn [rbind] in H. exact (IH _ _ (read_line_ok _ _ _ I E) H).
Qed.
Lemma reader_new_ok : reader_ok reader_new.
Proof. split; constructor. Qed.
Lemma read_lines_app a : forall b r, read_lines (a ++ b) r = (r' <~ read_lines a r ;; read_lines b r').
Proof.
  induction a as [|l a IH]; intros b r; [reflexivity|]. cbn [app Mesh.read_lines]. destruct (read_line r l) as [r1|]; [|reflexivity]. cbn [rbind]. apply IH.
Qed.

Lemma nth_res_at {A} (l : list A) i a : at_index l i = Some a -> nth_res l i = Ok a.
Proof. unfold at_index, nth_res. destruct (i <? 0); [discriminate|]. intros ->. reflexivity. Qed.
Lemma at_index_some {A} (l : list A) i : 0 <= i < zlen l -> exists a, at_index l i = Some a.
Proof.
  intros H. unfold at_index. replace (i <? 0) with false by lia. destruct (nth_error l (Z.to_nat i)) as [a|] eqn:E; [exists a; reflexivity|].
  exfalso. apply nth_error_None in E. unfold zlen in H. lia.
Qed.
Lemma map_at_index {A B} (f : A -> B) l i : at_index (map f l) i = option_map f (at_index l i).
Proof. unfold at_index. destruct (i <? 0); [reflexivity|]. apply nth_error_map. Qed.

(** Every combined corner comes from a face *)
Lemma combined_in l fs tris : NoDup l -> map (corners_of l) fs = map known tris -> (forall k, 0 <= k < zlen l -> Exists (fun f => uses f k) fs) ->
  forall c, In c l -> exists t, In t tris /\ let '(x, y, z) := t in c = x \/ c = y \/ c = z.
Proof.
  intros N M U c Hc. destruct (In_nth_error _ _ Hc) as [i Hi].
  assert (B : (i < List.length l)%nat) by (apply nth_error_Some; rewrite Hi; discriminate).
  assert (A : at_index l (Z.of_nat i) = Some c) by (unfold at_index; replace (Z.of_nat i <? 0) with false by lia; rewrite Nat2Z.id; exact Hi).
  specialize (U (Z.of_nat i) ltac:(unfold zlen; lia)). apply Exists_exists in U. destruct U as (f & Hf & Uf).
  assert (I : In (corners_of l f) (map known tris)) by (rewrite <- M; apply in_map; exact Hf).
  apply in_map_iff in I. destruct I as ([[x y] z] & E & It). exists (x, y, z). split; [exact It|].
  unfold known, corners_of in E. injection E as E1 E2 E3.
  destruct Uf as [Q|[Q|Q]]; [left|right; left|right; right]; congruence.
Qed.
Lemma surface_in reverse faces t : In t (surface reverse faces) -> Forall (fun f => 3 <= List.length f)%nat faces ->
  let '(a, b, c) := t in exists f, In f faces /\ In a f /\ In b f /\ In c f.
Proof.
  intros H L. unfold surface in H. apply in_flat_map in H. destruct H as (f & Hf & Ht). unfold fan_of in Ht. apply in_map_iff in Ht.
  destruct Ht as (j & <- & Hj). apply in_seq in Hj. exists f. rewrite Forall_forall in L. specialize (L f Hf). cbv beta in L.
  split; [exact Hf|]. unfold corner_at. repeat split; apply nth_In; destruct reverse; lia.
Qed.

(** What [read_obj] does in the two cases *)
Lemma read_obj_strict ls reverse r : read_lines ls reader_new = Ok r -> r_objects r = 1 -> r_needs_normalize r = false ->
  exists d, read_obj ls reverse = Ok d /\ o_name d = r_name r /\ o_vertices d = r_vertices r /\ o_tex d = r_tex r /\ o_normals d = r_normals r /\
    o_faces d = map (fun t => let '(a, b, c) := t in mkFace (c_v a - 1) (c_v b - 1) (c_v c - 1)) (surface reverse (r_faces r)).
Proof.
  intros H O N. pose proof (read_lines_ok _ _ _ reader_new_ok H) as [_ I]. specialize (I N).
  unfold Mesh.read_obj. rewrite H. cbn [rbind]. rewrite O. change (negb (1 =? 1)) with false. cbv iota. rewrite N.
  assert (E : map_res (strict_face reverse) (r_faces r) = Ok (map (fun t => let '(a, b, c) := t in mkFace (c_v a - 1) (c_v b - 1) (c_v c - 1)) (surface reverse (r_faces r)))).
  { clear H O N. induction (r_faces r) as [|f fs IH]; [reflexivity|]. inversion I as [|? ? [L M] I2]; subst.
    destruct f as [|a [|b [|c [|x f]]]]; try discriminate L. cbn [map_res]. unfold strict_face at 1, nth_res. cbn [nth_error Z.to_nat Pos.to_nat Pos.iter_op rbind].
    change (nth_error [a; b; c] (Pos.to_nat 1)) with (Some b). change (nth_error [a; b; c] (Pos.to_nat 2)) with (Some c). cbn [rbind].
    rewrite (IH I2). cbn [rbind]. destruct reverse; reflexivity. }
  rewrite E. cbn [rbind]. eexists. split; [reflexivity|]. cbn. repeat split; reflexivity.
Qed.
Lemma read_obj_general ls reverse r : read_lines ls reader_new = Ok r -> r_objects r = 1 -> r_needs_normalize r = true ->
  (Forall (good_face (zlen (r_vertices r)) (zlen (r_tex r)) (zlen (r_normals r))) (r_faces r) /\
   exists d combined, read_obj ls reverse = Ok d /\ o_name d = r_name r /\
     triangulate_and_dedup (r_faces r) (zlen (r_vertices r)) (zlen (r_tex r)) (zlen (r_normals r)) reverse = Ok (combined, o_faces d) /\
     (forall i, at_index (o_vertices d) i = match at_index combined i with Some (p, _, _) => at_index (r_vertices r) p | None => None end) /\
     (forall i, at_index (o_tex d) i = match at_index combined i with Some (_, t, _) => at_index (r_tex r) t | None => None end) /\
     (forall i, at_index (o_normals d) i = match at_index combined i with Some (_, _, n) => at_index (r_normals r) n | None => None end)) \/
  (~ Forall (good_face (zlen (r_vertices r)) (zlen (r_tex r)) (zlen (r_normals r))) (r_faces r) /\ read_obj ls reverse = Err).
Proof.
  intros H O N. pose proof (read_lines_ok _ _ _ reader_new_ok H) as [I _].
  unfold Mesh.read_obj. rewrite H. cbn [rbind]. rewrite O. change (negb (1 =? 1)) with false. cbv iota. rewrite N.
  unfold triangulate_and_dedup.
  destruct (triangulate_spec (zlen (r_vertices r)) (zlen (r_tex r)) (zlen (r_normals r)) reverse (r_faces r) I) as [[G E]|[G E]]; rewrite E; cbn [rbind];
    [|right; split; [exact G|reflexivity]].
  left. split; [exact G|].
  pose proof (dedup_spec (map triples (surface reverse (r_faces r))) [] (NoDup_nil _)) as D.
  destruct (dedup [] (map triples (surface reverse (r_faces r)))) as [l fs] eqn:ED. destruct D as (N4 & _ & M & U).
  assert (C : forall c, In c l -> 0 <= fst (fst c) < zlen (r_vertices r) /\ 0 <= snd (fst c) < zlen (r_tex r) /\ 0 <= snd c < zlen (r_normals r)).
  { intros c Hc. destruct (combined_in l fs _ N4 M U c Hc) as ([[x y] z] & Ht & Hx). apply in_map_iff in Ht. destruct Ht as ([[a b] e] & Et & Hs).
    pose proof (surface_in reverse (r_faces r) _ Hs) as S. cbv beta iota in S.
    destruct S as (f & Hf & Ha & Hb & He); [eapply Forall_impl; [|exact G]; intros f [Q _]; exact Q|].
    rewrite Forall_forall in G. destruct (G f Hf) as [_ Q]. rewrite Forall_forall in Q.
    pose proof (Q a Ha) as (A1 & A2 & A3). pose proof (Q b Hb) as (B1 & B2 & B3). pose proof (Q e He) as (E1 & E2 & E3).
    unfold triples in Et. injection Et as <- <- <-. destruct Hx as [-> | [-> | ->]]; unfold triple_of; cbn [fst snd]; lia. }
  assert (R : forall (A : Type) (arr : list A) (g : Z*Z*Z -> Z), (forall c, In c l -> 0 <= g c < zlen arr) ->
            exists out, map_res (fun c => nth_res arr (g c)) l = Ok out /\
              forall i, at_index out i = match at_index l i with Some c => at_index arr (g c) | None => None end).
  { intros A arr g. clear -parse64. induction l as [|c l IH]; intros Hg.
    - exists []. split; [reflexivity|]. intros i. unfold at_index. destruct (i <? 0); [reflexivity|]. destruct (Z.to_nat i); reflexivity.
    - destruct (at_index_some arr (g c) (Hg c (or_introl eq_refl))) as [x Hx]. destruct IH as (out & E & P); [intros k Hk; apply Hg; right; exact Hk|].
      exists (x :: out). cbn [map_res]. rewrite (nth_res_at _ _ _ Hx), E. cbn [rbind]. split; [reflexivity|].
      intros i. specialize (P (i - 1)). unfold at_index in *. destruct (i <? 0) eqn:Ei; [reflexivity|].
      destruct (Z.eq_dec i 0) as [->|Hi]; [cbn [nth_error Z.to_nat]; symmetry; exact Hx|].
      replace (i - 1 <? 0) with false in P by lia. replace (Z.to_nat i) with (S (Z.to_nat (i - 1))) by lia. exact P. }
  destruct (R _ (r_vertices r) (fun c => fst (fst c))) as (vs & EV & PV); [intros c Hc; apply (C c Hc)|].
  destruct (R _ (r_tex r) (fun c => snd (fst c))) as (ts & ET & PT); [intros c Hc; apply (C c Hc)|].
  destruct (R _ (r_normals r) (fun c => snd c)) as (ns & EN & PN); [intros c Hc; apply (C c Hc)|].
  rewrite EV, ET, EN. cbn [rbind]. exists (mkObjData (r_name r) vs ts ns fs), l. cbn [o_name o_faces o_vertices o_tex o_normals].
  split; [reflexivity|]. split; [reflexivity|]. split; [reflexivity|].
  split; [|split]; intros i; [rewrite PV|rewrite PT|rewrite PN]; destruct (at_index l i) as [[[p t] n]|]; reflexivity.
Qed.
End Reader.

(** Lemmas about cutting a polygon into triangles. *)
From Coq Require Import Floats.SpecFloat ZifyBool Permutation.
From Verif Require Import Base Text Image Sound Quantize ColorText JsonFloat Mesh SpecMesh Browser SpecBrowser Builtin SpecBuiltin BuiltinFacts Polygon SpecPolygon.

(** ** Paths and cycles *)
Fixpoint path {A} (l : list A) : list (A * A) :=
  match l with a :: ((b :: _) as r) => (a, b) :: path r | _ => [] end.
Lemma cycle_path {A} (x : A) r : cycle (x :: r) = path (x :: r ++ [x]).
Proof.
  unfold cycle. generalize x at 2 4 as y. revert x. induction r as [|z r IH]; intros x y; [reflexivity|]. cbn [app combine path]. f_equal. apply IH.
Qed.
Lemma path_app {A} (a : A) l1 l2 : path (l1 ++ a :: l2) = path (l1 ++ [a]) ++ path (a :: l2).
Proof.
  induction l1 as [|b l1 IH]; [reflexivity|]. destruct l1 as [|c l1]; [reflexivity|]. cbn [app path] in *. now rewrite IH.
Qed.
Lemma cycle_rotate {A} (l1 l2 : list A) : Permutation (cycle (l1 ++ l2)) (cycle (l2 ++ l1)).
Proof.
  destruct l1 as [|x r]; [now rewrite app_nil_r|]. destruct l2 as [|y s]; [now rewrite app_nil_r|].
  cbn [app]. rewrite !cycle_path. rewrite <- !app_assoc. cbn [app].
  change (x :: r ++ y :: s ++ [x]) with ((x :: r) ++ y :: (s ++ [x])). rewrite (path_app y (x :: r)).
  change (y :: s ++ x :: r ++ [y]) with ((y :: s) ++ x :: (r ++ [y])). rewrite (path_app x (y :: s)). apply Permutation_app_comm.
Qed.
Lemma path_swap {A} (l : list A) : path (rev l) = rev (map swap (path l)).
Proof.
  induction l as [|a l IH]; [reflexivity|]. destruct l as [|b l]; [reflexivity|]. cbn [path map rev] in *. rewrite <- app_assoc. cbn [app].
  rewrite path_app, IH. reflexivity.
Qed.
Lemma cycle_rev {A} (l : list A) : Permutation (cycle (rev l)) (map swap (cycle l)).
Proof.
  destruct l as [|x r]; [reflexivity|]. cbn [rev]. rewrite (cycle_rotate (rev r) [x]). cbn [app]. rewrite !cycle_path.
  replace (x :: rev r ++ [x]) with (rev (x :: r ++ [x])) by (cbn [rev]; rewrite rev_app_distr; reflexivity). rewrite path_swap. symmetry. apply Permutation_rev.
Qed.
Lemma path_map {A B} (f : A -> B) l : path (map f l) = map (fun e => (f (fst e), f (snd e))) (path l).
Proof. induction l as [|a l IH]; [reflexivity|]. destruct l as [|b l]; [reflexivity|]. cbn [path map fst snd] in *. now rewrite IH. Qed.
Lemma cycle_map {A B} (f : A -> B) l : cycle (map f l) = map (fun e => (f (fst e), f (snd e))) (cycle l).
Proof. destruct l as [|x r]; [reflexivity|]. cbn [map]. rewrite !cycle_path, <- path_map. cbn [map]. rewrite map_app. reflexivity. Qed.
Lemma cycle_in {A} (l : list A) a b : In (a, b) (cycle l) -> In a l /\ In b l.
Proof.
  destruct l as [|x r]; [intros []|]. unfold cycle. intros I. split; [exact (in_combine_l _ _ _ _ I)|]. apply in_combine_r in I. apply in_app_or in I.
  destruct I as [I|[<-|[]]]; [now right|now left].
Qed.

(** ** Cutting off one triangle *)
(** A polygon, seen from one of its vertices *)
Definition turned_to {A} (l l' : list A) : Prop := exists l1 l2, l = l1 ++ l2 /\ l' = l2 ++ l1.
Lemma turned_cycle {A} (l l' : list A) : turned_to l l' -> Permutation (cycle l) (cycle l').
Proof. intros (l1 & l2 & -> & ->). apply cycle_rotate. Qed.
Lemma turned_perm {A} (l l' : list A) : turned_to l l' -> Permutation l l'.
Proof. intros (l1 & l2 & -> & ->). apply Permutation_app_comm. Qed.
Lemma nth_split3 {A} (l : list A) i a b c : nth_error l i = Some a -> nth_error l (i + 1) = Some b -> nth_error l (i + 2) = Some c ->
  exists l1 l2, l = l1 ++ a :: b :: c :: l2 /\ List.length l1 = i.
Proof.
  intros HA HB HC. destruct (nth_error_split l i HA) as (l1 & r & -> & L). exists l1. subst i.
  rewrite nth_error_app2 in HB, HC by lia. replace (List.length l1 + 1 - List.length l1)%nat with 1%nat in HB by lia. replace (List.length l1 + 2 - List.length l1)%nat with 2%nat in HC by lia.
  destruct r as [|b' [|c' r]]; try discriminate. cbn in HB, HC. injection HB as ->. injection HC as ->. exists r. auto.
Qed.
Lemma drop_at {A} (l1 : list A) x l2 : firstn (List.length l1) (l1 ++ x :: l2) ++ skipn (S (List.length l1)) (l1 ++ x :: l2) = l1 ++ l2.
Proof.
  rewrite firstn_app, firstn_all, Nat.sub_diag, skipn_app. cbn [firstn]. rewrite app_nil_r. rewrite skipn_all2 by lia. replace (S (List.length l1) - List.length l1)%nat with 1%nat by lia. reflexivity.
Qed.
Lemma nth_last {A} (l : list A) s x : List.length l = S s -> nth_error l s = Some x -> exists l', l = l' ++ [x] /\ List.length l' = s.
Proof.
  intros L H. destruct (nth_error_split l s H) as (l1 & l2 & -> & L1). rewrite app_length in L. cbn in L. destruct l2; [|cbn in L; lia]. exists l1. auto.
Qed.
Lemma ear_shape (poly : list nat) i a b c : let s := List.length poly in (3 <= s)%nat -> (i < s)%nat ->
  nth_error poly i = Some a -> nth_error poly (if (i <? s - 1)%nat then i + 1 else 0) = Some b -> nth_error poly (if (i <? s - 2)%nat then i + 2 else i + 2 - s) = Some c ->
  let k := if (i <? s - 1)%nat then (i + 1)%nat else 0%nat in
  exists l, turned_to poly (a :: b :: c :: l) /\ turned_to (firstn k poly ++ skipn (S k) poly) (a :: c :: l).
Proof.
  intros s S3 I HA HB HC k.
  destruct (Nat.lt_ge_cases i (s - 2)) as [C|C].
  - replace (i <? s - 2)%nat with true in HC by lia. unfold k. replace (i <? s - 1)%nat with true in * by lia.
    destruct (nth_split3 poly i a b c HA HB HC) as (l1 & l2 & E & L). exists (l2 ++ l1). split.
    + exists l1, (a :: b :: c :: l2). split; [exact E|reflexivity].
    + subst poly i. replace (l1 ++ a :: b :: c :: l2) with ((l1 ++ [a]) ++ b :: c :: l2) by (rewrite <- app_assoc; reflexivity).
      replace (List.length l1 + 1)%nat with (List.length (l1 ++ [a])) by (rewrite app_length; reflexivity). rewrite drop_at. exists l1, (a :: c :: l2). split; [rewrite <- app_assoc; reflexivity|reflexivity].
  - replace (i <? s - 2)%nat with false in HC by lia. destruct (Nat.eq_dec i (s - 2)) as [E|NE].
    + unfold k. replace (i <? s - 1)%nat with true in * by lia. replace (i + 2 - s)%nat with 0%nat in HC by lia.
      destruct (nth_last poly (i + 1) b ltac:(unfold s in *; lia) HB) as (p & -> & LP).
      destruct p as [|c' p]; [cbn in LP; lia|]. cbn in HC. injection HC as ->.
      rewrite nth_error_app1 in HA by lia. replace i with (List.length p) in HA by (cbn in LP; lia).
      destruct (nth_last (c :: p) (List.length p) a ltac:(reflexivity) HA) as (q & Q & LQ).
      destruct q as [|c' q].
      * cbn in LQ. destruct p; [|discriminate]. unfold s in S3. cbn in S3. lia.
      * injection Q as <- ->. exists q. split.
        -- exists (c :: q), [a; b]. split; [cbn; now rewrite <- app_assoc|reflexivity].
        -- exists (c :: q), [a]. split; [|reflexivity]. replace (i + 1)%nat with (List.length (c :: q ++ [a])) by (exact LP). rewrite drop_at. now rewrite app_nil_r.
    + assert (i = s - 1)%nat by lia. unfold k. replace (i <? s - 1)%nat with false in * by lia. replace (i + 2 - s)%nat with 1%nat in HC by lia.
      destruct poly as [|b' [|c' p]]; [discriminate|discriminate|]. cbn in HB, HC. injection HB as ->. injection HC as ->.
      unfold s in *. cbn [List.length] in *. replace i with (S (S (List.length p)) - 1)%nat in HA by lia. cbn [Nat.sub] in HA.
      clear -S3 HA. destruct p as [|d p]; [cbn in S3; lia|]. cbn [nth_error List.length] in HA.
      destruct (nth_last (d :: p) (List.length p) a ltac:(reflexivity) HA) as (q & Q & LQ).
      exists q. cbn [firstn skipn app]. rewrite Q. split; [exists (b :: c :: q), [a]|exists (c :: q), [a]]; split; reflexivity.
Qed.

Lemma find_ear_spec advance poly : forall left i r, find_ear advance poly left i = Ok r -> (i + left <= List.length poly)%nat ->
  match r with
  | None => True
  | Some (k, (a, b, c)) => exists l, turned_to poly (a :: b :: c :: l) /\ turned_to (firstn k poly ++ skipn (S k) poly) (a :: c :: l)
  end.
Proof.
  induction left as [|left IH]; intros i r H B; [injection H as <-; exact I|]. cbn [find_ear] in H.
  destruct (List.length poly <? 3)%nat eqn:S3; [discriminate|].
  destruct (nth_error poly (if (i =? 0)%nat then _ else _)) as [pre|]; [|discriminate].
  destruct (nth_error poly i) as [a|] eqn:HA; [|discriminate].
  destruct (nth_error poly (if (i <? List.length poly - 1)%nat then _ else _)) as [b|] eqn:HB; [|discriminate].
  destruct (nth_error poly (if (i <? List.length poly - 2)%nat then _ else _)) as [c|] eqn:HC; [|discriminate].
  destruct (nth_error poly (if (i <? List.length poly - 3)%nat then _ else _)) as [post|]; [|discriminate].
  destruct (advance poly a b c pre post) as [[|]|f]; cbn in H; [|apply (IH (S i)); [exact H|lia]|discriminate].
  injection H as <-. apply (ear_shape poly i a b c); try assumption; lia.
Qed.
(** The loop does not panic if the test does not. *)
Lemma find_ear_ok advance poly : (3 <= List.length poly)%nat ->
  (forall a b c pre post, In a poly -> In b poly -> In c poly -> In pre poly -> In post poly -> exists x, advance poly a b c pre post = Ok x) ->
  forall left i, (i + left <= List.length poly)%nat -> exists r, find_ear advance poly left i = Ok r.
Proof.
  intros S3 OK. induction left as [|left IH]; intros i B; [eexists; reflexivity|]. cbn [find_ear]. replace (List.length poly <? 3)%nat with false by lia.
  assert (G : forall j, (j < List.length poly)%nat -> exists x, nth_error poly j = Some x /\ In x poly).
  { intros j J. destruct (nth_error poly j) as [x|] eqn:E; [exists x; split; [reflexivity|exact (nth_error_In _ _ E)]|]. apply nth_error_None in E. lia. }
  destruct (G (if (i =? 0)%nat then List.length poly - 1 else i - 1)%nat) as (pre & -> & P1); [destruct (i =? 0)%nat; lia|].
  destruct (G i) as (a & -> & P2); [lia|].
  destruct (G (if (i <? List.length poly - 1)%nat then i + 1 else 0)%nat) as (b & -> & P3); [destruct (i <? List.length poly - 1)%nat eqn:E; lia|].
  destruct (G (if (i <? List.length poly - 2)%nat then i + 2 else i + 2 - List.length poly)%nat) as (c & -> & P4); [destruct (i <? List.length poly - 2)%nat eqn:E; lia|].
  destruct (G (if (i <? List.length poly - 3)%nat then i + 3 else i + 3 - List.length poly)%nat) as (post & -> & P5); [destruct (i <? List.length poly - 3)%nat eqn:E; lia|].
  destruct (OK a b c pre post P2 P3 P4 P1 P5) as (x & ->). cbn. destruct x; [eexists; reflexivity|apply IH; lia].
Qed.

(** ** All the triangles *)
Definition zpair (e : nat * nat) : Z * Z := (Z.of_nat (fst e), Z.of_nat (snd e)).
Lemma turned_nodup {A} (l l' : list A) : turned_to l l' -> NoDup l -> NoDup l'.
Proof. intros T. apply Permutation_NoDup, turned_perm, T. Qed.
Lemma clip_spec advance : forall count poly fs, clip advance count poly = Ok fs -> List.length poly = (count + 2)%nat -> NoDup poly ->
  exists rest ds, NoDup rest /\ incl rest poly /\ (List.length rest + List.length fs)%nat = List.length poly /\ List.length ds = List.length fs /\
    Permutation (map swap (edges fs) ++ map zpair (cycle rest)) (map zpair (cycle poly) ++ ds ++ map swap ds) /\
    (List.length rest = 2%nat -> fs = [] \/ exists e, In e (map zpair (cycle rest)) /\ In e ds) /\
    Forall (fun f => distinct_corners f /\ exists a b c, In a poly /\ In b poly /\ In c poly /\ f = mkFace (Z.of_nat a) (Z.of_nat c) (Z.of_nat b)) fs.
Proof.
  assert (STOP : forall poly : list nat, NoDup poly -> exists rest ds, NoDup rest /\ incl rest poly /\ (List.length rest + 0)%nat = List.length poly /\ List.length ds = 0%nat /\
    Permutation (map swap (edges []) ++ map zpair (cycle rest)) (map zpair (cycle poly) ++ ds ++ map swap ds) /\
    (List.length rest = 2%nat -> ([] : list face) = [] \/ exists e, In e (map zpair (cycle rest)) /\ In e ds) /\
    Forall (fun f => distinct_corners f /\ exists a b c, In a poly /\ In b poly /\ In c poly /\ f = mkFace (Z.of_nat a) (Z.of_nat c) (Z.of_nat b)) []).
  { intros poly N. exists poly, []. split; [exact N|]. split; [apply incl_refl|]. split; [lia|]. split; [reflexivity|]. split; [cbn [edges flat_map map app]; now rewrite app_nil_r|]. split; [left; reflexivity|constructor]. }
  induction count as [|count IH]; intros poly fs H L N.
  { injection H as <-. apply STOP, N. }
  cbn [clip] in H. destruct (find_ear advance poly (List.length poly) 0) as [r|f] eqn:E; [|discriminate]. cbn [rbind] in H.
  pose proof (find_ear_spec advance poly _ _ _ E ltac:(lia)) as SP. destruct r as [[k [[a b] c]]|]; [|injection H as <-; apply STOP, N].
  destruct SP as (l & T1 & T2). set (poly' := firstn k poly ++ skipn (S k) poly) in *.
  destruct (clip advance count poly') as [fs'|] eqn:E'; [|discriminate]. cbn [rbind] in H. injection H as <-.
  pose proof (turned_perm _ _ T1) as P1. pose proof (turned_perm _ _ T2) as P2. pose proof (turned_nodup _ _ T1 N) as N1.
  assert (L' : List.length poly' = (count + 2)%nat).
  { apply Permutation_length in P1, P2. cbn [List.length] in *. lia. }
  assert (N' : NoDup poly').
  { apply (Permutation_NoDup (Permutation_sym P2)). inversion N1 as [|? ? A1 N2]. inversion N2 as [|? ? B1 N3]. constructor; [|exact N3]. intros I. apply A1. right. exact I. }
  assert (INC : incl poly' poly).
  { intros x X. apply (Permutation_in x P2) in X. apply (Permutation_in x (Permutation_sym P1)). destruct X as [X|X]; [left; exact X|right; right; exact X]. }
  destruct (IH poly' fs' E' L' N') as (rest & ds & NR & IR & LR & LD & PE & TWO & FC).
  exists rest, ((Z.of_nat a, Z.of_nat c) :: ds). split; [exact NR|]. split; [intros x X; apply INC, IR, X|].
  split; [cbn [List.length]; apply Permutation_length in P1, P2; cbn [List.length] in *; lia|]. split; [cbn [List.length]; lia|]. split.
  - pose proof (turned_cycle _ _ T1) as C1. pose proof (turned_cycle _ _ T2) as C2.
    assert (CA : cycle (a :: b :: c :: l) = (a, b) :: (b, c) :: path (c :: l ++ [a])) by (rewrite cycle_path; reflexivity).
    assert (CB : cycle (a :: c :: l) = (a, c) :: path (c :: l ++ [a])) by (rewrite cycle_path; reflexivity).
    rewrite CA in C1. rewrite CB in C2. apply (Permutation_map zpair) in C1, C2. cbn [map] in C1, C2.
    rewrite C1. rewrite C2 in PE. cbn [edges flat_map f_0 f_1 f_2 app map swap fst snd].
    set (X := map zpair (path (c :: l ++ [a]))) in *. set (ac := (Z.of_nat a, Z.of_nat c)). fold (edges fs').
    change (swap (Z.of_nat a, Z.of_nat c)) with (Z.of_nat c, Z.of_nat a). change (swap (Z.of_nat c, Z.of_nat b)) with (zpair (b, c)). change (swap (Z.of_nat b, Z.of_nat a)) with (zpair (a, b)).
    change (zpair (a, c)) with ac in PE. unfold swap at 2. cbn [fst snd].
    rewrite PE. cbn [app]. change (fst ac) with (Z.of_nat a). change (snd ac) with (Z.of_nat c).
    set (ca := (Z.of_nat c, Z.of_nat a)). set (ab := zpair (a, b)). set (bc := zpair (b, c)).
    assert (M : forall (x y z w : Z * Z) (U D W : list (Z * Z)), Permutation (x :: y :: z :: (w :: U) ++ D ++ W) (z :: y :: U ++ w :: D ++ x :: W)).
    { clear. intros x y z w U D W. cbn [app].
      transitivity (z :: y :: x :: w :: U ++ D ++ W); [transitivity (x :: z :: y :: w :: U ++ D ++ W); [apply perm_skip, perm_swap|]; etransitivity; [apply perm_swap|]; apply perm_skip, perm_swap|].
      do 2 apply perm_skip. rewrite <- (Permutation_middle U (D ++ x :: W) w). etransitivity; [apply perm_swap|]. apply perm_skip. rewrite (app_assoc U D W), (app_assoc U D (x :: W)). apply Permutation_middle. }
    apply M.
  - split.
    + intros R2. right. destruct (TWO R2) as [-> | (e & I1 & I2)].
      * cbn [edges flat_map map app List.length] in *. destruct ds; [|discriminate]. rewrite app_nil_r in PE. exists (Z.of_nat a, Z.of_nat c). split; [|left; reflexivity].
        apply (Permutation_in _ (Permutation_sym PE)). change (Z.of_nat a, Z.of_nat c) with (zpair (a, c)). apply in_map. apply (Permutation_in _ (Permutation_sym (turned_cycle _ _ T2))). left. reflexivity.
      * exists e. split; [exact I1|right; exact I2].
    + assert (IN : forall x, In x (a :: b :: c :: l) -> In x poly) by (intros x; apply (Permutation_in x (Permutation_sym P1))).
      constructor.
      * split; [|exists a, b, c; repeat split; try apply IN; cbn; auto]. inversion N1 as [|? ? A1 N2]. inversion N2 as [|? ? B1 N3]. cbn in A1, B1. unfold distinct_corners. cbn [f_0 f_1 f_2]. split; [|split]; intros X; apply Nat2Z.inj in X; subst; tauto.
      * eapply Forall_impl; [|exact FC]. intros f (D & x & y & z & IX & IY & IZ & EF). split; [exact D|]. exists x, y, z. auto.
Qed.

(** ** No edge twice *)
Lemma edges_cons f fs : edges (f :: fs) = [(f_0 f, f_1 f); (f_1 f, f_2 f); (f_2 f, f_0 f)] ++ edges fs.
Proof. reflexivity. Qed.
Lemma clip_within advance : forall count poly fs, clip advance count poly = Ok fs -> List.length poly = (count + 2)%nat -> NoDup poly ->
  forall e, In e (edges fs) -> exists i j, In i poly /\ In j poly /\ e = zpair (i, j).
Proof.
  intros count poly fs H L N e I. destruct (clip_spec advance count poly fs H L N) as (_ & _ & _ & _ & _ & _ & _ & _ & F).
  unfold edges in I. apply in_flat_map in I. destruct I as (f & I & J). rewrite Forall_forall in F. destruct (F f I) as (_ & a & b & c & A & B & C & ->). cbn in J.
  destruct J as [<-|[<-|[<-|[]]]]; do 2 eexists; (split; [|split; [|reflexivity]]); assumption.
Qed.
(** Each vertex has one after it. *)
Lemma cycle_fun {A} (l : list A) x y z : NoDup l -> In (x, y) (cycle l) -> In (x, z) (cycle l) -> y = z.
Proof.
  destruct l as [|a r]; [intros _ []|]. unfold cycle. intros N. generalize (r ++ [a]) as s. revert N. generalize (a :: r) as l. induction l as [|b l IH]; intros N s I J; [destruct I|].
  destruct s as [|c s]; [destruct I|]. inversion N as [|? ? B N']. subst. destruct I as [I|I], J as [J|J].
  - congruence.
  - injection I as -> ->. exfalso. apply B. exact (in_combine_l _ _ _ _ J).
  - injection J as -> ->. exfalso. apply B. exact (in_combine_l _ _ _ _ I).
  - exact (IH N' s I J).
Qed.
Lemma cycle_inj {A} (l : list A) x y z : NoDup l -> In (x, z) (cycle l) -> In (y, z) (cycle l) -> x = y.
Proof.
  intros N I J. apply (cycle_fun (rev l) z); [apply NoDup_rev, N| |]; apply (Permutation_in _ (Permutation_sym (cycle_rev l))).
  - change (z, x) with (swap (x, z)). apply in_map, I.
  - change (z, y) with (swap (y, z)). apply in_map, J.
Qed.
Lemma zpair_inj e e' : zpair e = zpair e' -> e = e'.
Proof. destruct e as [a b], e' as [c d]. unfold zpair. cbn. intros E. injection E as E1 E2. f_equal; lia. Qed.
Lemma clip_once advance : forall count poly fs, clip advance count poly = Ok fs -> List.length poly = (count + 2)%nat -> NoDup poly ->
  NoDup (edges fs) /\ forall e, In e (cycle poly) -> ~ In (zpair e) (edges fs).
Proof.
  induction count as [|count IH]; intros poly fs H L N; [injection H as <-; split; [constructor|intros e _ []]|].
  pose proof H as H0. cbn [clip] in H. destruct (find_ear advance poly (List.length poly) 0) as [r|f] eqn:E; [|discriminate]. cbn [rbind] in H.
  pose proof (find_ear_spec advance poly _ _ _ E ltac:(lia)) as SP. destruct r as [[k [[a b] c]]|]; [|injection H as <-; split; [constructor|intros e _ []]].
  destruct SP as (l & T1 & T2). set (poly' := firstn k poly ++ skipn (S k) poly) in *.
  destruct (clip advance count poly') as [fs'|] eqn:E'; [|discriminate]. cbn [rbind] in H. injection H as <-.
  pose proof (turned_perm _ _ T1) as P1. pose proof (turned_perm _ _ T2) as P2. pose proof (turned_nodup _ _ T1 N) as N1.
  assert (L' : List.length poly' = (count + 2)%nat) by (apply Permutation_length in P1, P2; cbn [List.length] in *; lia).
  inversion N1 as [|? ? A1 N2]. inversion N2 as [|? ? B1 N3]. subst.
  assert (N' : NoDup poly') by (apply (Permutation_NoDup (Permutation_sym P2)); constructor; [intros I; apply A1; right; exact I|exact N3]).
  destruct (IH poly' fs' E' L' N') as (ND & BO). pose proof (clip_within advance count poly' fs' E' L' N') as W.
  assert (AB : a <> b) by (intros ->; apply A1; left; reflexivity). assert (AC : a <> c) by (intros ->; apply A1; right; left; reflexivity).
  assert (BC : b <> c) by (intros ->; apply B1; left; reflexivity).
  assert (NB : ~ In b poly'). { intros I. apply (Permutation_in b P2) in I. destruct I as [I|I]; [exact (AB I)|exact (B1 I)]. }
  assert (NE : forall x, ~ In (zpair (b, x)) (edges fs') /\ ~ In (zpair (x, b)) (edges fs')).
  { intros x. split; intros I; destruct (W _ I) as (i & j & PI & PJ & Q); apply zpair_inj in Q; injection Q; intros; subst; contradiction. }
  pose proof (turned_cycle _ _ T1) as C1. pose proof (turned_cycle _ _ T2) as C2.
  assert (CA : cycle (a :: b :: c :: l) = (a, b) :: (b, c) :: path (c :: l ++ [a])) by (rewrite cycle_path; reflexivity).
  assert (CB : cycle (a :: c :: l) = (a, c) :: path (c :: l ++ [a])) by (rewrite cycle_path; reflexivity).
  rewrite CA in C1. rewrite CB in C2.
  assert (ED : edges (mkFace (Z.of_nat a) (Z.of_nat c) (Z.of_nat b) :: fs') = [zpair (a, c); zpair (c, b); zpair (b, a)] ++ edges fs') by reflexivity.
  rewrite ED. split.
  - assert (AC' : ~ In (zpair (a, c)) (edges fs')) by (apply BO, (Permutation_in _ (Permutation_sym C2)); left; reflexivity).
    cbn [app]. constructor; [|constructor; [|constructor; [|exact ND]]].
    + intros [Q|[Q|Q]]; [apply zpair_inj in Q; congruence|apply zpair_inj in Q; congruence|contradiction].
    + intros [Q|Q]; [apply zpair_inj in Q; congruence|]. exact (proj2 (NE c) Q).
    + intros Q. exact (proj1 (NE a) Q).
  - intros [x y] I J.
    assert (U : forall z, In (a, z) (cycle poly) -> z = b).
    { intros z Z. apply (cycle_fun poly a); [exact N|exact Z|]. apply (Permutation_in _ (Permutation_sym C1)). left. reflexivity. }
    assert (V : forall z, In (z, b) (cycle poly) -> z = a).
    { intros z Z. apply (cycle_inj poly z a b); [exact N|exact Z|]. apply (Permutation_in _ (Permutation_sym C1)). left. reflexivity. }
    assert (X : forall z, In (b, z) (cycle poly) -> z = c).
    { intros z Z. apply (cycle_fun poly b); [exact N|exact Z|]. apply (Permutation_in _ (Permutation_sym C1)). right. left. reflexivity. }
    apply in_app_or in J. destruct J as [[Q|[Q|[Q|[]]]]|J]; try (apply zpair_inj in Q; injection Q; intros; subst).
    + apply U in I. congruence.
    + apply V in I. congruence.
    + apply X in I. congruence.
    + apply (BO (x, y)); [|exact J]. apply (Permutation_in _ C1) in I. apply (Permutation_in _ (Permutation_sym C2)). destruct I as [I|[I|I]]; [| |right; exact I].
      * injection I as <- <-. exfalso. exact (proj2 (NE a) J).
      * injection I as <- <-. exfalso. exact (proj1 (NE c) J).
Qed.

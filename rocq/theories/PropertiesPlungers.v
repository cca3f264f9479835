(** C68: meshes of plungers.

    The code is in Plungers.v; what the property means is in SpecPlungers.v. *)
From Coq Require Import Reals Lra Floats.SpecFloat ZifyBool Permutation Sorted.
From Verif Require Import Base Text Json Image Sound Quantize QuantizeMono ColorText Cfb JsonFloat FlipFacts Mesh SpecMesh Browser Common Enums ItemPlunger Builtin SpecBuiltin BuiltinFacts Polygon SpecPolygon Smooth SpecSmooth PropertiesSmooth SpecWalls RubberMesh SpecRubber RubberFacts SpecRamps RampFacts FloatBounds RampReals SpecFlats Plungers SpecPlungers PlungerFacts PlungerReals.
From Verif Require GltfFacts.
Local Open Scope Z_scope.

(** ** The shape of the tip *)
Lemma split_parts c s : forall word, ~ In c word -> let parts := split_on c word s in
  rev word ++ s = match parts with [] => [] | p :: r => fold_left (fun a q => a ++ [c] ++ q) r p end /\ parts <> [] /\ Forall (fun p => ~ In c p) parts.
Proof.
  induction s as [|x s IH]; intros word N; cbn [split_on]; cbv zeta.
  - split; [cbn; apply app_nil_r|]. split; [discriminate|]. repeat constructor. rewrite <- in_rev. exact N.
  - destruct (x =? c)%N eqn:E.
    + apply N.eqb_eq in E. subst x. destruct (IH [] ltac:(intros [])) as (A & B & C). cbv zeta in *. split; [|split; [discriminate|constructor; [rewrite <- in_rev; exact N|exact C]]].
      destruct (split_on c [] s) as [|p r]; [contradiction|]. cbn [rev app] in A. cbn [fold_left]. assert (G : forall l a b, fold_left (fun a q => a ++ [c] ++ q) l (a ++ b) = a ++ fold_left (fun a q => a ++ [c] ++ q) l b).
      { induction l as [|y l IHl]; intros a b; [reflexivity|]. cbn [fold_left]. rewrite <- app_assoc. apply IHl. }
      rewrite app_assoc, G, A, <- app_assoc. reflexivity.
    + apply N.eqb_neq in E. destruct (IH (x :: word) ltac:(intros [I|I]; [congruence|contradiction])) as (A & B & C). cbv zeta in *. split; [|split; [exact B|exact C]]. rewrite <- A. cbn [rev]. rewrite <- app_assoc. reflexivity.
Qed.
Lemma semicolons p r : with_semicolons (p :: r) = fold_left (fun a q => a ++ [59%N] ++ q) r p.
Proof.
  revert p. induction r as [|q r IH]; intros p; [reflexivity|]. change (with_semicolons (p :: q :: r)) with (p ++ [59%N] ++ with_semicolons (q :: r)). rewrite IH. cbn [fold_left].
  assert (G : forall l a b, a ++ fold_left (fun a q => a ++ [59%N] ++ q) l b = fold_left (fun a q => a ++ [59%N] ++ q) l (a ++ b)) by (induction l as [|y l IHl]; intros a b; [reflexivity|]; cbn [fold_left]; rewrite IHl, <- app_assoc; reflexivity).
  rewrite app_assoc, G, <- app_assoc. reflexivity.
Qed.
Lemma insert_permutation t l : Permutation (insert_tip t l) (t :: l).
Proof. induction l as [|q l IH]; [reflexivity|]. cbn [insert_tip]. destruct (lt32 _ _); [|reflexivity]. rewrite IH. apply perm_swap. Qed.
Lemma sort_permutation l : Permutation (sort_tips l) l.
Proof. induction l as [|t l IH]; [reflexivity|]. change (sort_tips (t :: l)) with (insert_tip t (sort_tips l)). rewrite insert_permutation, IH. reflexivity. Qed.
Lemma insert_sorted t l : (forall x, In x (t :: l) -> f32_is_nan (tip_y x) = false) -> StronglySorted (fun a b => le32 (tip_y a) (tip_y b)) l -> StronglySorted (fun a b => le32 (tip_y a) (tip_y b)) (insert_tip t l).
Proof.
  intros N S. induction S as [|q l S IH F]; [repeat constructor|]. cbn [insert_tip]. destruct (lt32 (tip_y q) (tip_y t)) eqn:L.
  - constructor; [apply IH; intros x [<-|I]; apply N; [left; reflexivity|right; right; exact I]|]. apply Forall_forall. intros x I. apply (Permutation_in _ (insert_permutation t l)) in I. destruct I as [<-|I]; [apply GltfFacts.lt_le; exact L|]. rewrite Forall_forall in F. apply F, I.
  - assert (TQ : le32 (tip_y t) (tip_y q)) by (apply GltfFacts.le_total; [apply nan_value, N; left; reflexivity|apply nan_value, N; right; left; reflexivity|exact L]).
    constructor; [constructor; assumption|]. constructor; [exact TQ|]. apply Forall_forall. intros x I. rewrite Forall_forall in F. exact (GltfFacts.le_trans _ _ _ TQ (F x I)).
Qed.
Lemma sort_sorted l : (forall x, In x l -> f32_is_nan (tip_y x) = false) -> StronglySorted (fun a b => le32 (tip_y a) (tip_y b)) (sort_tips l).
Proof.
  induction l as [|t l IH]; intros N; [constructor|]. change (sort_tips (t :: l)) with (insert_tip t (sort_tips l)). apply insert_sorted; [|apply IH; intros; apply N; right; assumption]. intros x [<-|I]; apply N; [left; reflexivity|]. right. apply (Permutation_in _ (sort_permutation l)), I.
Qed.
(** The points of a tip are those of its text, sorted. *)
Theorem C68_tip_points : forall parse s, tip_points parse s (parse_tip_shape parse s).
Proof.
  intros parse s. destruct (split_parts 59%N s [] ltac:(intros [])) as (A & B & C). cbv zeta in *. cbn [rev app] in A. exists (split_on 59%N [] s), (map (tip_of parse) (split_on 59%N [] s)). unfold parse_tip_shape.
  split; [destruct (split_on 59%N [] s) as [|p r]; [contradiction|]; rewrite semicolons; exact A|]. split; [exact B|]. split; [exact C|]. split; [|split].
  - clear. induction (split_on 59%N [] s) as [|p l IH]; cbn [map]; constructor; [|exact IH]. unfold tip_of. destruct (split_whitespace [] p) as [|a [|b rest]] eqn:W; [constructor; intros; congruence|constructor; intros; congruence|].
    destruct (parse a) as [y|] eqn:PA; [|constructor; intros a' b' rest' y' d' E PA' PB'; rewrite W in E; injection E as <- <- <-; congruence]. destruct (parse b) as [d|] eqn:PB; [econstructor; eassumption|]. constructor. intros a' b' rest' y' d' E PA' PB'. rewrite W in E. injection E as <- <- <-. congruence.
  - rewrite <- flat_map_concat_map. apply sort_permutation.
  - intros N. apply sort_sorted. intros x I. apply N. apply (Permutation_in _ (Permutation_sym (sort_permutation _))), I.
Qed.
Print Assumptions C68_tip_points.

(** ** Which parts there are *)
Lemma build_full sin cos parse checked p : Plunger_is_visible p = true -> full p -> build_plunger_meshes sin cos parse checked p =
  (spring <~ spring_mesh sin cos parse checked p ;; tip <~ tip_mesh sin cos parse checked p ;;
   Ok (mkPlungerMeshes None (Some (rod_vertices sin cos parse p, rod_faces)) (Some spring) (Some (ring_vertices sin cos parse p, strips 3)) (Some tip))).
Proof. intros V F. unfold build_plunger_meshes. rewrite V. cbn [negb]. destruct F as [-> | ->]; rewrite rod_ok, ring_ok; cbn [rbind]; exact eq_refl. Qed.
Lemma build_flat sin cos parse checked p : Plunger_is_visible p = true -> ~ full p -> build_plunger_meshes sin cos parse checked p = Ok (mkPlungerMeshes (Some (flat_vertices sin cos p, flat_faces)) None None None None).
Proof. intros V F. unfold build_plunger_meshes. rewrite V. cbn [negb]. unfold full in F. destruct (Plunger_plunger_type p); try (exfalso; apply F; auto; fail); rewrite flat_ok; exact eq_refl. Qed.
Lemma build_none sin cos parse checked p : Plunger_is_visible p = false -> build_plunger_meshes sin cos parse checked p = Ok (mkPlungerMeshes None None None None None).
Proof. intros V. unfold build_plunger_meshes. rewrite V. exact eq_refl. Qed.
Lemma full_dec p : {full p} + {~ full p}.
Proof. unfold full. destruct (Plunger_plunger_type p); auto; right; intros [E|E]; discriminate. Qed.
Theorem C68_parts : forall sin cos parse checked p r, build_plunger_meshes sin cos parse checked p = Ok r ->
  (Plunger_is_visible p = false -> r = mkPlungerMeshes None None None None None) /\
  (Plunger_is_visible p = true -> ~ full p -> exists m, r = mkPlungerMeshes (Some m) None None None None) /\
  (Plunger_is_visible p = true -> full p -> exists rod spring ring tip, r = mkPlungerMeshes None (Some rod) (Some spring) (Some ring) (Some tip)).
Proof.
  intros sin cos parse checked p r H. split; [|split].
  - intros V. rewrite build_none in H by exact V. injection H as <-. reflexivity.
  - intros V F. rewrite build_flat in H by assumption. revert H. generalize (flat_vertices sin cos p, flat_faces). intros m H. injection H as <-. exists m. reflexivity.
  - intros V F. rewrite build_full in H by assumption. revert H. generalize (rod_vertices sin cos parse p, rod_faces) (ring_vertices sin cos parse p, strips 3) (spring_mesh sin cos parse checked p) (tip_mesh sin cos parse checked p). intros rod ring [spring|] [tip|] H; cbn [rbind] in H; try discriminate. injection H as <-. eauto 8.
Qed.
Print Assumptions C68_parts.

(** ** When they are made *)
Lemma each_total {A B} (f : A -> res (list B)) l : (forall x, In x l -> exists y, f x = Ok y) -> exists r, each f l = Ok r.
Proof. induction l as [|x l IH]; intros H; [eexists; reflexivity|]. destruct (H x (or_introl eq_refl)) as (y & Y). destruct IH as (r & R); [intros; apply H; right; assumption|]. cbn [each]. rewrite Y, R. eexists. reflexivity. Qed.
Lemma each_forall {A B} (P : B -> Prop) (f : A -> res (list B)) l r : (forall x y, In x l -> f x = Ok y -> Forall P y) -> each f l = Ok r -> Forall P r.
Proof.
  revert r. induction l as [|x l IH]; intros r H E; cbn [each] in E; [injection E as <-; constructor|]. destruct (f x) as [y|] eqn:F; cbn [rbind] in E; [|discriminate]. destruct (each f l) as [z|] eqn:G; cbn [rbind] in E; [|discriminate]. injection E as <-.
  apply Forall_app. split; [apply (H x y); [left; reflexivity|exact F]|apply IH; [intros; apply (H x0 y0); [right; assumption|assumption]|reflexivity]].
Qed.
Lemma wrapped_add a b : exists x, add16 false a b = Ok x /\ x < 65536.
Proof. unfold add16. destruct (a + b <? 65536) eqn:E; [exists (a + b); split; [reflexivity|lia]|]. exists ((a + b) mod 65536). split; [reflexivity|]. apply Z.mod_pos_bound. lia. Qed.
Definition short (f : face) : Prop := f_0 f < 65536 /\ f_1 f < 65536 /\ f_2 f < 65536.
Lemma wrapped_coil i : exists fs, coil_faces false i = Ok fs /\ Forall short fs.
Proof.
  unfold coil_faces. cbv zeta. destruct (wrapped_add ((8 * i) mod 65536) 8) as (n & -> & _). cbn [rbind]. generalize ((8 * i) mod 65536). intros b.
  assert (Q : forall j, exists q, coil_quad false b n j = Ok q /\ Forall short q).
  { intros j. unfold coil_quad. cbv zeta. destruct (wrapped_add b j) as (a & -> & A). destruct (wrapped_add b ((j + 1) mod 8)) as (c & -> & C). destruct (wrapped_add n j) as (d & -> & D). destruct (wrapped_add n ((j + 1) mod 8)) as (e & -> & E). cbn [rbind]. eexists. split; [reflexivity|]. repeat constructor; assumption. }
  destruct (each_total (coil_quad false b n) (steps 8)) as (r & R); [intros j _; destruct (Q j) as (q & E & _); eauto|]. exists r. split; [exact R|]. apply (each_forall short _ _ _) with (2 := R). intros j y _ E. destruct (Q j) as (q & E' & F). rewrite E' in E. injection E as <-. exact F.
Qed.
Lemma wrapped_coils n : exists fs, each (coil_faces false) (steps n) = Ok fs /\ Forall short fs.
Proof.
  destruct (each_total (coil_faces false) (steps n)) as (r & R); [intros i _; destruct (wrapped_coil i) as (fs & E & _); eauto|]. exists r. split; [exact R|]. apply (each_forall short _ _ _) with (2 := R). intros i y _ E. destruct (wrapped_coil i) as (q & E' & F). rewrite E' in E. injection E as <-. exact F.
Qed.
Lemma spring_eq sin cos parse checked p : 2 <= rings p -> spring_mesh sin cos parse checked p = (fs <~ each (coil_faces checked) (steps (rings p - 1)) ;; Ok (spring_vertices sin cos parse p, fs)).
Proof. intros H2. unfold spring_mesh. cbv zeta. rewrite total_rings. replace (rings p <? 2) with false by lia. unfold spring_vertices, spring_line. exact eq_refl. Qed.
Lemma wrapped_spring sin cos parse p : exists m, spring_mesh sin cos parse false p = Ok m /\ Forall short (snd m) /\ (2 <= rings p -> zlen (fst m) = 8 * rings p).
Proof.
  destruct (Z_lt_ge_dec (rings p) 2) as [S|S]; [exists ([], []); split; [apply spring_small, S|split; [constructor|lia]]|].
  destruct (wrapped_coils (rings p - 1)) as (fs & E & F). exists (spring_vertices sin cos parse p, fs). split; [rewrite spring_eq by lia; rewrite E; reflexivity|]. split; [exact F|]. intros _. exact (spring_len sin cos parse p).
Qed.
Lemma wrapped_strip b n i : exists fs, connect_faces false b n i = Ok fs /\ Forall short fs.
Proof.
  unfold connect_faces. cbv zeta. destruct (wrapped_add b i) as (a & -> & A). destruct (wrapped_add b ((i + 1) mod n)) as (c & -> & C). destruct (wrapped_add b n) as (d & -> & D). cbn [rbind]. destruct (wrapped_add d i) as (e & -> & E). destruct (wrapped_add d ((i + 1) mod n)) as (g & -> & G). cbn [rbind]. eexists. split; [reflexivity|]. repeat constructor; assumption.
Qed.
Lemma wrapped_connect m r1 r2 n1 n2 b t1 t2 : exists fs b', connect_rings false m r1 r2 n1 n2 b t1 t2 = Ok ((fst m ++ ring_wrappers (zlen r1) r1 n1 t1 ++ ring_wrappers (zlen r1) r2 n2 t2, snd m ++ fs), b') /\ Forall short fs.
Proof.
  unfold connect_rings. cbv zeta. generalize (zlen r1). intros n. destruct (each_total (connect_faces false b n) (steps n)) as (r & R); [intros i _; destruct (wrapped_strip b n i) as (fs & E & _); eauto|]. rewrite R. cbn [rbind]. destruct (wrapped_add b (2 * n)) as (b' & -> & _). cbn [rbind]. exists r, b'. split; [reflexivity|].
  apply (each_forall short _ _ _) with (2 := R). intros i y _ E. destruct (wrapped_strip b n i) as (q & E' & F). rewrite E' in E. injection E as <-. exact F.
Qed.
Lemma wrapped_all : forall l m b tvs, Forall ring16 l -> zlen l = zlen tvs + 1 -> exists fs b', connect_all false m b l tvs = Ok ((fst m ++ chain l tvs, snd m ++ fs), b') /\ Forall short fs.
Proof.
  induction l as [|[r1 n1] l IH]; intros m b tvs F L; [unfold zlen in L; cbn in L; lia|]. destruct tvs as [|[t1 t2] tvs].
  - destruct l as [|x l]; [|unfold zlen in L; cbn in L; lia]. exists [], b. unfold chain. cbn. rewrite !app_nil_r. split; [destruct m; reflexivity|constructor].
  - destruct l as [|[r2 n2] l]; [unfold zlen in L; cbn in L; lia|]. inversion F as [|? ? [R1 _] F']; subst. cbn [fst] in R1.
    change (connect_all false m b ((r1, n1) :: (r2, n2) :: l) ((t1, t2) :: tvs)) with (x <~ connect_rings false m r1 r2 n1 n2 b t1 t2 ;; connect_all false (fst x) (snd x) ((r2, n2) :: l) tvs).
    destruct (wrapped_connect m r1 r2 n1 n2 b t1 t2) as (fs & b' & -> & S). cbn [rbind fst snd]. destruct (IH (fst m ++ ring_wrappers (zlen r1) r1 n1 t1 ++ ring_wrappers (zlen r1) r2 n2 t2, snd m ++ fs) b' tvs F') as (fs' & b'' & -> & S'); [unfold zlen in *; cbn [List.length] in *; lia|]. cbn [fst snd]. exists (fs ++ fs'), b''. rewrite R1.
    unfold chain. cbn [combine tl flat_map chain_part fst snd]. rewrite <- !app_assoc. split; [reflexivity|apply Forall_app; auto].
Qed.
Lemma wrapped_tip sin cos parse p : let points := parse_tip_shape parse (Plunger_tip_shape p) in exists m, tip_mesh sin cos parse false p = Ok m /\ Forall short (snd m) /\ (2 <= zlen points -> zlen (fst m) = 32 * (zlen points - 1)).
Proof.
  cbv zeta. destruct (Z_lt_ge_dec (zlen (parse_tip_shape parse (Plunger_tip_shape p))) 2) as [L|L]; [exists ([], []); split; [apply tip_small, L|split; [constructor|lia]]|].
  destruct (tip_tvs_len sin cos parse p ltac:(lia)) as [L1 L2]. unfold tip_mesh. cbv zeta. replace (zlen (parse_tip_shape parse (Plunger_tip_shape p)) <? 2) with false by lia.
  change (map (fun t => with_normals (Plunger_width p) (lathe_ring sin cos (add32 (neg_f32 (Plunger_stroke p)) (tip_y t)) (Plunger_width p) (mul32 (Plunger_width p) (tip_r t)))) (parse_tip_shape parse (Plunger_tip_shape p))) with (tip_rings sin cos parse p). fold (tip_tvs parse p).
  destruct (wrapped_all (tip_rings sin cos parse p) ([], []) 0 (tip_tvs parse p) (tip_16 sin cos parse p) L1) as (fs & b' & -> & S). cbn [rbind fst snd app]. eexists. split; [reflexivity|]. cbn [fst snd]. split; [exact S|]. intros _. rewrite chain_len; [rewrite L2; reflexivity|apply tip_16|exact L1].
Qed.
Lemma checked_coils n fs : each (coil_faces true) (steps (n - 1)) = Ok fs -> n <= 8192.
Proof.
  intros F. destruct (Z_le_gt_dec n 8192) as [L|L]; [exact L|]. exfalso.
  destruct (each_in _ _ _ 8191 F ltac:(apply steps_in; lia)) as (y & Y). revert Y. unfold coil_faces. cbv zeta. replace (8 * 8191) with 65528 by lia. replace (65528 mod 65536) with 65528 by (symmetry; apply Z.mod_small; lia). unfold add16. replace (65528 + 8 <? 65536) with false by lia. cbn [rbind]. discriminate.
Qed.
Lemma checked_spring sin cos parse p m : spring_mesh sin cos parse true p = Ok m -> rings p <= 8192.
Proof.
  intros E. destruct (Z_lt_ge_dec (rings p) 2) as [S|S]; [lia|]. rewrite spring_eq in E by lia. destruct (each (coil_faces true) (steps (rings p - 1))) as [fs|] eqn:F; cbn [rbind] in E; [|discriminate]. exact (checked_coils _ _ F).
Qed.
Lemma checked_tip sin cos parse p m : tip_mesh sin cos parse true p = Ok m -> zlen (parse_tip_shape parse (Plunger_tip_shape p)) <= 2048.
Proof.
  destruct (Z_lt_ge_dec (zlen (parse_tip_shape parse (Plunger_tip_shape p))) 2) as [L|L]; [lia|]. destruct (tip_tvs_len sin cos parse p ltac:(lia)) as [L1 L2]. unfold tip_mesh. cbv zeta. replace (zlen (parse_tip_shape parse (Plunger_tip_shape p)) <? 2) with false by lia.
  change (map (fun t => with_normals (Plunger_width p) (lathe_ring sin cos (add32 (neg_f32 (Plunger_stroke p)) (tip_y t)) (Plunger_width p) (mul32 (Plunger_width p) (tip_r t)))) (parse_tip_shape parse (Plunger_tip_shape p))) with (tip_rings sin cos parse p). fold (tip_tvs parse p).
  destruct (connect_all true ([], []) 0 (tip_rings sin cos parse p) (tip_tvs parse p)) as [x|] eqn:E; cbn [rbind]; [|discriminate]. intros _. apply connect_all_limit in E; [lia|apply tip_16|exact L1|lia].
Qed.
Lemma spring_same sin cos parse p : rings p <= 8192 -> exists m, forall checked, spring_mesh sin cos parse checked p = Ok m.
Proof. intros L. destruct (Z_lt_ge_dec (rings p) 2) as [S|S]; [exists ([], []); intros checked; apply spring_small, S|]. eexists. intros checked. apply spring_ok; lia. Qed.
Lemma tip_same sin cos parse p : zlen (parse_tip_shape parse (Plunger_tip_shape p)) <= 2048 -> exists m, forall checked, tip_mesh sin cos parse checked p = Ok m.
Proof. intros L. destruct (Z_lt_ge_dec (zlen (parse_tip_shape parse (Plunger_tip_shape p))) 2) as [S|S]; [exists ([], []); intros checked; apply tip_small, S|]. eexists. intros checked. apply tip_ok; lia. Qed.
(** A build that does not check for overflow always returns. A build that does returns if, and only if, the numbers of the vertices fit in 16 bits; then the two return the same. *)
Theorem C68_total : forall sin cos parse p, let points := parse_tip_shape parse (Plunger_tip_shape p) in
  (exists r, build_plunger_meshes sin cos parse false p = Ok r) /\
  ((exists r, build_plunger_meshes sin cos parse true p = Ok r) <-> (Plunger_is_visible p = true -> full p -> fits points p)) /\
  (forall r, build_plunger_meshes sin cos parse true p = Ok r -> build_plunger_meshes sin cos parse false p = Ok r).
Proof.
  intros sin cos parse p. cbv zeta. destruct (Plunger_is_visible p) eqn:V; [|split; [eexists; apply build_none, V|]; split; [split; [discriminate|intros _; eexists; apply build_none, V]|rewrite !build_none by exact V; auto]].
  destruct (full_dec p) as [F|F]; [|split; [eexists; apply build_flat; assumption|]; split; [split; [contradiction|intros _; eexists; apply build_flat; assumption]|rewrite !build_flat by assumption; auto]].
  rewrite !build_full by assumption. generalize (rod_vertices sin cos parse p, rod_faces) (ring_vertices sin cos parse p, strips 3). intros rod ring. split; [|split; [split|]].
  - destruct (wrapped_spring sin cos parse p) as (m & -> & _). destruct (wrapped_tip sin cos parse p) as (t & -> & _). cbn [rbind]. eexists. reflexivity.
  - intros (r & E) _ _. destruct (spring_mesh sin cos parse true p) as [m|] eqn:S; cbn [rbind] in E; [|discriminate]. destruct (tip_mesh sin cos parse true p) as [t|] eqn:T; cbn [rbind] in E; [|discriminate]. split; [apply (checked_tip _ _ _ _ _ T)|apply (checked_spring _ _ _ _ _ S)].
  - intros H. destruct (H eq_refl F) as [H1 H2]. destruct (spring_same sin cos parse p H2) as (m & ->). destruct (tip_same sin cos parse p H1) as (t & ->). cbn [rbind]. eexists. reflexivity.
  - intros r E. destruct (spring_mesh sin cos parse true p) as [m|] eqn:S; cbn [rbind] in E; [|discriminate]. destruct (tip_mesh sin cos parse true p) as [t|] eqn:T; cbn [rbind] in E; [|discriminate].
    pose proof (checked_tip _ _ _ _ _ T) as H1. pose proof (checked_spring _ _ _ _ _ S) as H2. destruct (spring_same sin cos parse p H2) as (m' & S'). destruct (tip_same sin cos parse p H1) as (t' & T'). rewrite S' in *. rewrite T' in *. injection S as ->. injection T as ->. exact E.
Qed.
Print Assumptions C68_total.
(** They fit if the spring has no more than 341 turns; there are 24 rings for a turn. *)
Theorem C68_turns : forall p, moderate (turns p) -> (0 <= real (turns p))%R ->
  (24 * real (turns p) - 101 / 100 - real (turns p) / 100000 < IZR (rings p) <= 24 * real (turns p) + real (turns p) / 100000 + / 100)%R /\
  ((real (turns p) <= 341)%R -> rings p <= 8192) /\ ((342 <= real (turns p))%R -> 8192 < rings p).
Proof. intros p M P. split; [apply rings_count; assumption|]. split; [intros Q; apply rings_most; [exact M|split; assumption]|intros Q; apply rings_few; assumption]. Qed.
Print Assumptions C68_turns.

(** ** The meshes *)
Lemma parts_are sin cos parse checked p r : fits (parse_tip_shape parse (Plunger_tip_shape p)) p -> build_plunger_meshes sin cos parse checked p = Ok r ->
  (forall m, pl_flat_rod r = Some m -> m = (flat_vertices sin cos p, flat_faces)) /\ (forall m, pl_rod r = Some m -> m = (rod_vertices sin cos parse p, rod_faces)) /\
  (forall m, pl_ring r = Some m -> m = (ring_vertices sin cos parse p, strips 3)) /\
  (forall m, pl_tip r = Some m -> (zlen (parse_tip_shape parse (Plunger_tip_shape p)) < 2 -> m = ([], [])) /\ (2 <= zlen (parse_tip_shape parse (Plunger_tip_shape p)) -> m = (chain (tip_rings sin cos parse p) (tip_tvs parse p), strips (zlen (parse_tip_shape parse (Plunger_tip_shape p)) - 1)))) /\
  (forall m, pl_spring r = Some m -> (rings p < 2 -> m = ([], [])) /\ (2 <= rings p -> m = (spring_vertices sin cos parse p, flat_map (fun i => flat_map (coil_cell i) (steps 8)) (steps (rings p - 1))))).
Proof.
  intros [H1 H2] E. destruct (Plunger_is_visible p) eqn:V; [|rewrite build_none in E by exact V; injection E as <-; cbn [pl_flat_rod pl_rod pl_ring pl_tip pl_spring]; repeat split; intros; discriminate].
  destruct (full_dec p) as [F|F].
  - rewrite build_full in E by assumption. revert E. generalize (rod_vertices sin cos parse p, rod_faces) (ring_vertices sin cos parse p, strips 3) (flat_vertices sin cos p, flat_faces). intros rod ring flat E.
    destruct (spring_mesh sin cos parse checked p) as [sp|] eqn:S; cbn [rbind] in E; [|discriminate]. destruct (tip_mesh sin cos parse checked p) as [t|] eqn:T; cbn [rbind] in E; [|discriminate]. injection E as <-. cbn [pl_flat_rod pl_rod pl_ring pl_tip pl_spring].
    split; [discriminate|]. split; [intros m M; injection M as <-; reflexivity|]. split; [intros m M; injection M as <-; reflexivity|]. split.
    + intros m M. injection M as <-. split; intros L; [rewrite tip_small in T by exact L|rewrite tip_ok in T by assumption]; injection T; intros; congruence.
    + intros m M. injection M as <-. split; intros L; [rewrite spring_small in S by exact L; injection S as <-; reflexivity|]. rewrite spring_ok in S by assumption. injection S as <-. reflexivity.
  - rewrite build_flat in E by assumption. revert E. generalize (flat_vertices sin cos p, flat_faces). intros flat E. injection E as <-. cbn [pl_flat_rod pl_rod pl_ring pl_tip pl_spring]. split; [intros m M; injection M as <-; reflexivity|]. repeat split; discriminate.
Qed.
Lemma two_chain a b t : ring16 a -> ring16 b -> zlen (chain [a; b] [t]) = 32.
Proof. intros A B. rewrite chain_len; [reflexivity|constructor; [exact A|constructor; [exact B|constructor]]|reflexivity]. Qed.
(** The sizes of the meshes; three different vertices for each triangle, and every vertex is used. *)
Theorem C68_mesh : forall sin cos parse checked p r, let points := parse_tip_shape parse (Plunger_tip_shape p) in
  fits points p -> build_plunger_meshes sin cos parse checked p = Ok r ->
  (forall m, pl_flat_rod r = Some m -> sized m 66 64 /\ proper m) /\ (forall m, pl_rod r = Some m -> sized m 145 144 /\ proper m) /\ (forall m, pl_ring r = Some m -> sized m 96 96 /\ proper m) /\
  (forall m, pl_tip r = Some m -> (zlen points < 2 -> m = ([], [])) /\ (2 <= zlen points -> sized m (32 * (zlen points - 1)) (32 * (zlen points - 1)) /\ proper m)) /\
  (forall m, pl_spring r = Some m -> (rings p < 2 -> m = ([], [])) /\ (2 <= rings p -> sized m (8 * rings p) (16 * (rings p - 1)) /\ proper m)).
Proof.
  intros sin cos parse checked p r. cbv zeta. intros FT E. destruct (parts_are _ _ _ _ _ _ FT E) as (A & B & C & D & G). clear E FT.
  assert (PF : forall vs fs n, zlen vs = n -> proper_faces n fs -> proper (vs, fs)) by (intros vs fs n <- P; exact P).
  split; [|split; [|split; [|split]]].
  - intros m M. apply A in M. subst m. assert (L : zlen (flat_vertices sin cos p) = 66) by (unfold flat_vertices; rewrite !zlen_app, !disc_len by apply lathe_len; rewrite chain_len; [reflexivity|apply flat_16|reflexivity]).
    split; [split; [exact L|vm_compute; reflexivity]|]. apply (PF _ _ 66 L). apply properb_spec. vm_compute. reflexivity.
  - intros m M. apply B in M. subst m. assert (L : zlen (rod_vertices sin cos parse p) = 145) by (unfold rod_vertices; rewrite !zlen_app, !disc_len by apply lathe_len; rewrite chain_len; [reflexivity|apply rod_16|reflexivity]).
    split; [split; [exact L|vm_compute; reflexivity]|]. apply (PF _ _ 145 L). apply properb_spec. vm_compute. reflexivity.
  - intros m M. apply C in M. subst m. assert (L : zlen (ring_vertices sin cos parse p) = 96).
    { unfold ring_vertices. rewrite !zlen_app. rewrite (two_chain _ _ _ (all_16 _ _ _ _ _ _) (all_16 _ _ _ _ _ _)), (two_chain _ _ _ (with_normals_16 _ _ (row_len _ _ _ _ _)) (with_normals_16 _ _ (row_len _ _ _ _ _))), (two_chain _ _ _ (all_16 _ _ _ _ _ _) (all_16 _ _ _ _ _ _)). reflexivity. }
    split; [split; [exact L|vm_compute; reflexivity]|]. apply (PF _ _ 96 L). apply properb_spec. vm_compute. reflexivity.
  - intros m M. apply D in M. destruct M as [M1 M2]. split; [exact M1|]. intros L. rewrite (M2 L). destruct (tip_tvs_len sin cos parse p ltac:(lia)) as [L1 L2].
    assert (LC : zlen (chain (tip_rings sin cos parse p) (tip_tvs parse p)) = 32 * (zlen (parse_tip_shape parse (Plunger_tip_shape p)) - 1)) by (rewrite chain_len; [rewrite L2; reflexivity|apply tip_16|exact L1]).
    split; [split; [exact LC|apply strips_len; lia]|]. apply (PF _ _ _ LC). apply strips_proper. lia.
  - intros m M. apply G in M. destruct M as [M1 M2]. split; [exact M1|]. intros L. rewrite (M2 L). pose proof (spring_len sin cos parse p) as LC. split; [split; [exact LC|apply coil_len; exact L]|]. apply (PF _ _ _ LC). apply coil_proper. exact L.
Qed.
Print Assumptions C68_mesh.

(** ** The surfaces *)
Lemma flat_closed vs : closed_surface (on_places on_flat_rod (vs, flat_faces)).
Proof. unfold on_places. apply closedb_spec. vm_compute. reflexivity. Qed.
Lemma rod_closed vs : closed_surface (on_places on_rod (vs, rod_faces) ++ round_back 16 4).
Proof. unfold on_places. apply closedb_spec. vm_compute. reflexivity. Qed.
Lemma strips_closed vs n : 0 < n -> closed_surface (on_places on_strips (vs, strips n) ++ round 16 0 ++ round_back 16 n).
Proof. exact (strips_open n). Qed.
Lemma coil_closed vs n : 2 <= n -> closed_surface (on_places (on_ring 8) (vs, flat_map (fun i => flat_map (coil_cell i) (steps 8)) (steps (n - 1))) ++ round_back 8 0 ++ round 8 (n - 1)).
Proof. exact (coil_open n). Qed.
(** The flat rod is closed. The rod is closed but for the last ring, at the end of the player. The ring is open at its first and last circle, and so are the tip and the spring. *)
Theorem C68_surface : forall sin cos parse checked p r, let points := parse_tip_shape parse (Plunger_tip_shape p) in
  fits points p -> build_plunger_meshes sin cos parse checked p = Ok r ->
  (forall m, pl_flat_rod r = Some m -> closed_surface (on_places on_flat_rod m)) /\
  (forall m, pl_rod r = Some m -> closed_surface (on_places on_rod m ++ round_back 16 4)) /\
  (forall m, pl_ring r = Some m -> closed_surface (on_places on_strips m ++ round 16 0 ++ round_back 16 3)) /\
  (forall m, pl_tip r = Some m -> 2 <= zlen points -> closed_surface (on_places on_strips m ++ round 16 0 ++ round_back 16 (zlen points - 1))) /\
  (forall m, pl_spring r = Some m -> 2 <= rings p -> closed_surface (on_places (on_ring 8) m ++ round_back 8 0 ++ round 8 (rings p - 1))).
Proof.
  intros sin cos parse checked p r. cbv zeta. intros FT E. destruct (parts_are _ _ _ _ _ _ FT E) as (A & B & C & D & G). clear E FT. split; [|split; [|split; [|split]]].
  - intros m M. rewrite (A m M). apply flat_closed.
  - intros m M. rewrite (B m M). apply rod_closed.
  - intros m M. rewrite (C m M). apply strips_closed. lia.
  - intros m M L. destruct (D m M) as [_ X]. rewrite (X L). apply strips_closed. lia.
  - intros m M L. destruct (G m M) as [_ X]. rewrite (X L). revert L. generalize (spring_vertices sin cos parse p) (rings p). intros vs n L. apply coil_closed. exact L.
Qed.
Print Assumptions C68_surface.

(** ** Where the vertices are *)
Lemma wrapper_circle sin cos y zc r j p n tu tv : 0 <= j < 16 -> nth_error (lathe_ring sin cos y zc r) (Z.to_nat j) = Some p -> on_circle sin cos zc r y j (w_vertex (new_vertex p n tu tv)).
Proof. intros J P. destruct (lathe_nth sin cos y zc r j J) as (q & Q & C). rewrite Q in P. injection P as <-. apply C. Qed.
Lemma on_strips_range k n : 0 <= k < 32 * n -> 0 <= fst (on_strips k) <= n /\ 0 <= snd (on_strips k) < 16.
Proof. intros K. destruct (split32 k) as (s & b & j & E & S0 & B & J & _); [lia|]. rewrite E, strips_at by assumption. cbn [fst snd]. lia. Qed.
Lemma chain_place sin cos zc l tvs k v (y r : Z -> f32) : Forall ring16 l -> zlen l = zlen tvs + 1 ->
  (forall i ring, 0 <= i < zlen l -> nth_error l (Z.to_nat i) = Some ring -> fst ring = lathe_ring sin cos (y i) zc (r i)) ->
  nth_error (chain l tvs) k = Some v -> on_circle sin cos zc (r (fst (on_strips (Z.of_nat k)))) (y (fst (on_strips (Z.of_nat k)))) (snd (on_strips (Z.of_nat k))) (w_vertex v).
Proof.
  intros F L Y E. assert (K : 0 <= Z.of_nat k < 32 * zlen tvs). { rewrite <- (chain_len l tvs F L). assert (k < List.length (chain l tvs))%nat by (apply nth_error_Some; congruence). unfold zlen. lia. }
  destruct (chain_nth l tvs (Z.of_nat k) F L K) as (ring & normals & p & n & t1 & t2 & A & P & N & T & C). rewrite Nat2Z.id, E in C. injection C as ->. pose proof (on_strips_range _ _ K) as [R1 R2].
  specialize (Y (fst (on_strips (Z.of_nat k))) (ring, normals) ltac:(lia) A). cbn [fst] in Y. rewrite Y in P. apply wrapper_circle; assumption.
Qed.
Lemma disc_place sin cos y zc r normal tv k v : nth_error (disc cos (lathe_ring sin cos y zc r) normal tv) (S k) = Some v -> on_circle sin cos zc r y (Z.of_nat k) (w_vertex v) /\ (k < 16)%nat.
Proof.
  intros E. assert (K : (k < 16)%nat). { assert (S k < List.length (disc cos (lathe_ring sin cos y zc r) normal tv))%nat by (apply nth_error_Some; congruence). pose proof (disc_len cos (lathe_ring sin cos y zc r) normal tv (lathe_len _ _ _ _ _)) as D. unfold zlen in D. lia. }
  split; [|exact K]. destruct (lathe_nth sin cos y zc r (Z.of_nat k) ltac:(lia)) as (q & Q & C). pose proof (disc_nth cos (lathe_ring sin cos y zc r) normal tv (Z.of_nat k) q ltac:(lia) Q) as D. rewrite Nat2Z.id, E in D. injection D as ->. apply C.
Qed.
Lemma nth_map_steps {A} (f : Z -> A) n i x : 0 <= i < n -> nth_error (map f (steps n)) (Z.to_nat i) = Some x -> x = f i.
Proof. intros I E. rewrite nth_error_map, (steps_nth n i I) in E. injection E as <-. reflexivity. Qed.
Lemma flat_place sin cos p k v : nth_error (flat_vertices sin cos p) (Z.to_nat k) = Some v -> 0 <= k -> let '(i, j) := on_flat_rod k in 0 <= i ->
  on_circle sin cos (mul32 (Plunger_width p) f32_1_25) (rod_is p) (if i =? 0 then Plunger_height p else neg_f32 (Plunger_stroke p)) j (w_vertex v).
Proof.
  intros E K. set (zf := mul32 (Plunger_width p) f32_1_25). unfold flat_vertices in E. fold zf in E. change (rod_radius p) with (rod_is p) in E. pose proof (flat_16 sin cos p) as F16.
  assert (LC : zlen (chain (flat_rings sin cos p) [(f32_one, f32_zero)]) = 32) by (rewrite chain_len; [reflexivity|exact F16|reflexivity]). unfold zlen in LC. unfold on_flat_rod. destruct (k <? 32) eqn:K1.
  - rewrite nth_error_app1 in E by lia. destruct (on_strips k) as [i j] eqn:ST. intros I0.
    pose proof (chain_place sin cos zf (flat_rings sin cos p) [(f32_one, f32_zero)] (Z.to_nat k) v (fun i => if i =? 0 then Plunger_height p else neg_f32 (Plunger_stroke p)) (fun _ => rod_is p) F16 eq_refl) as H.
    rewrite Z2Nat.id, ST in H by lia. cbn [fst snd] in H. apply H; [|exact E]. intros i' ring I' N. change (zlen (flat_rings sin cos p)) with 2 in I'. assert (i' = 0 \/ i' = 1) as [-> | ->] by lia; cbn in N; injection N as <-; reflexivity.
  - rewrite nth_error_app2 in E by lia. pose proof (disc_len cos (lathe_ring sin cos (Plunger_height p) zf (rod_is p)) up_y f32_one (lathe_len _ _ _ _ _)) as D1. unfold zlen in D1. destruct (k =? 32) eqn:K2; [lia|]. destruct (k <? 49) eqn:K3.
    + rewrite nth_error_app1 in E by lia. intros _. change (0 =? 0) with true. cbv iota. replace (Z.to_nat k - List.length (chain (flat_rings sin cos p) [(f32_one, f32_zero)]))%nat with (S (Z.to_nat (k - 33))) in E by lia. apply disc_place in E. rewrite Z2Nat.id in E by lia. apply E.
    + rewrite nth_error_app2 in E by lia. destruct (k =? 49) eqn:K4; [lia|]. intros _. change (1 =? 0) with false. cbv iota.
      replace (Z.to_nat k - List.length (chain (flat_rings sin cos p) [(f32_one, f32_zero)]) - List.length (disc cos (lathe_ring sin cos (Plunger_height p) zf (rod_is p)) up_y f32_one))%nat with (S (Z.to_nat (k - 50))) in E by lia. apply disc_place in E. rewrite Z2Nat.id in E by lia. apply E.
Qed.
Lemma rod_place sin cos parse p k v : nth_error (rod_vertices sin cos parse p) (Z.to_nat k) = Some v -> 0 <= k -> let '(i, j) := on_rod k in 0 <= i ->
  on_circle sin cos (Plunger_width p) (rod_is p) (rod_y parse p i) j (w_vertex v).
Proof.
  intros E K. unfold rod_vertices in E. pose proof (rod_16 sin cos parse p) as F16.
  assert (LC : zlen (chain (rod_rings sin cos parse p) rod_tvs) = 128) by (rewrite chain_len; [reflexivity|exact F16|reflexivity]). unfold zlen in LC. unfold on_rod. destruct (k <? 128) eqn:K1.
  - rewrite nth_error_app1 in E by lia. destruct (on_strips k) as [i j] eqn:ST. intros I0.
    pose proof (chain_place sin cos (Plunger_width p) (rod_rings sin cos parse p) rod_tvs (Z.to_nat k) v (rod_y parse p) (fun _ => rod_is p) F16 eq_refl) as H.
    rewrite Z2Nat.id, ST in H by lia. cbn [fst snd] in H. apply H; [|exact E]. intros i' ring I' N. change (zlen (rod_rings sin cos parse p)) with 5 in I'. unfold rod_rings in N. apply nth_map_steps in N; [|exact I']. rewrite N. exact eq_refl.
  - rewrite nth_error_app2 in E by lia. destruct (k =? 128) eqn:K2; [lia|]. intros _. replace (Z.to_nat k - List.length (chain (rod_rings sin cos parse p) rod_tvs))%nat with (S (Z.to_nat (k - 129))) in E by lia. unfold rod_ring in E. apply disc_place in E. rewrite Z2Nat.id in E by lia. apply E.
Qed.
Lemma tip_place sin cos parse p k v : let points := parse_tip_shape parse (Plunger_tip_shape p) in 2 <= zlen points -> nth_error (chain (tip_rings sin cos parse p) (tip_tvs parse p)) (Z.to_nat k) = Some v -> 0 <= k ->
  exists t, nth_error points (Z.to_nat (fst (on_strips k))) = Some t /\ on_circle sin cos (Plunger_width p) (mul32 (Plunger_width p) (tip_r t)) (add32 (neg_f32 (Plunger_stroke p)) (tip_y t)) (snd (on_strips k)) (w_vertex v).
Proof.
  cbv zeta. intros L E K. destruct (tip_tvs_len sin cos parse p ltac:(lia)) as [L1 L2]. pose proof (tip_16 sin cos parse p) as F16. set (points := parse_tip_shape parse (Plunger_tip_shape p)) in *.
  assert (KL : k < 32 * (zlen points - 1)). { rewrite <- L2, <- (chain_len _ _ F16 L1). assert (Z.to_nat k < List.length (chain (tip_rings sin cos parse p) (tip_tvs parse p)))%nat by (apply nth_error_Some; congruence). unfold zlen. lia. }
  pose proof (on_strips_range k (zlen points - 1) ltac:(lia)) as [R _]. destruct (nth_error points (Z.to_nat (fst (on_strips k)))) as [t|] eqn:T; [|apply nth_error_None in T; unfold zlen in *; lia]. exists t. split; [reflexivity|].
  pose proof (chain_place sin cos (Plunger_width p) (tip_rings sin cos parse p) (tip_tvs parse p) (Z.to_nat k) v (fun i => add32 (neg_f32 (Plunger_stroke p)) (tip_y (nth (Z.to_nat i) points t))) (fun i => mul32 (Plunger_width p) (tip_r (nth (Z.to_nat i) points t))) F16 L1) as H.
  rewrite Z2Nat.id in H by lia. cbv beta in H. rewrite (nth_error_nth points _ t T) in H. apply H; [|exact E]. intros i ring I N. unfold tip_rings in N. fold points in N. rewrite nth_error_map in N. destruct (nth_error points (Z.to_nat i)) as [u|] eqn:U; [|discriminate]. cbn [option_map] in N. injection N as <-. rewrite (nth_error_nth points _ t U). exact eq_refl.
Qed.
Lemma nth_app3 {A} (a b c : list A) k v m : List.length a = m -> List.length b = m -> List.length c = m -> nth_error (a ++ b ++ c) k = Some v -> (k < 3 * m)%nat /\
  ((k < m)%nat /\ nth_error a k = Some v \/ (m <= k < 2 * m)%nat /\ nth_error b (k - m) = Some v \/ (2 * m <= k < 3 * m)%nat /\ nth_error c (k - 2 * m) = Some v).
Proof.
  intros A1 B1 C1 E. assert (K : (k < List.length (a ++ b ++ c))%nat) by (apply nth_error_Some; congruence). rewrite !app_length in K. split; [lia|]. destruct (Nat.lt_ge_cases k m) as [L|L]; [left; rewrite nth_error_app1 in E by lia; auto|right]. rewrite nth_error_app2 in E by lia. destruct (Nat.lt_ge_cases k (2 * m)) as [L2|L2].
  - left. rewrite nth_error_app1 in E by lia. rewrite A1 in E. split; [lia|exact E].
  - right. rewrite nth_error_app2 in E by lia. rewrite A1, B1 in E. replace (k - m - m)%nat with (k - 2 * m)%nat in E by lia. split; [lia|exact E].
Qed.
Lemma on_strips_shift s k : on_strips (32 * s + k) = (s + fst (on_strips k), snd (on_strips k)).
Proof.
  unfold on_strips. cbn [fst snd]. replace (32 * s + k) with (k + s * 32) by lia. rewrite Z.div_add, Z.mod_add by lia. replace (k + s * 32) with (k + (2 * s) * 16) by lia. rewrite Z.mod_add by lia. f_equal. lia.
Qed.
Lemma pair_place sin cos zc y1 r1 n1 y2 r2 n2 t k v : zlen n1 = 16 -> zlen n2 = 16 -> nth_error (chain [(lathe_ring sin cos y1 zc r1, n1); (lathe_ring sin cos y2 zc r2, n2)] [t]) k = Some v ->
  let i := fst (on_strips (Z.of_nat k)) in (i = 0 \/ i = 1) /\ on_circle sin cos zc (if i =? 0 then r1 else r2) (if i =? 0 then y1 else y2) (snd (on_strips (Z.of_nat k))) (w_vertex v).
Proof.
  intros N1 N2 E. cbv zeta. assert (F : Forall ring16 [(lathe_ring sin cos y1 zc r1, n1); (lathe_ring sin cos y2 zc r2, n2)]) by (repeat (apply Forall_cons || apply Forall_nil); split; cbn [fst snd]; (apply lathe_len || assumption)).
  assert (K : Z.of_nat k < 32 * zlen [t]). { rewrite <- (chain_len _ [t] F eq_refl). assert (k < List.length (chain [(lathe_ring sin cos y1 zc r1, n1); (lathe_ring sin cos y2 zc r2, n2)] [t]))%nat by (apply nth_error_Some; congruence). unfold zlen. lia. }
  change (zlen [t]) with 1 in K. pose proof (on_strips_range (Z.of_nat k) 1 ltac:(lia)) as [R _]. split; [lia|].
  apply (chain_place sin cos zc _ [t] k v (fun i => if i =? 0 then y1 else y2) (fun i => if i =? 0 then r1 else r2) F eq_refl); [|exact E]. intros i ring I N. change (zlen [(lathe_ring sin cos y1 zc r1, n1); (lathe_ring sin cos y2 zc r2, n2)]) with 2 in I. assert (i = 0 \/ i = 1) as [-> | ->] by lia; cbn in N; injection N as <-; reflexivity.
Qed.
Lemma ring_place sin cos parse p k v : nth_error (ring_vertices sin cos parse p) (Z.to_nat k) = Some v -> 0 <= k -> let '(i, j) := on_strips k in
  on_circle sin cos (Plunger_width p) (if (i =? 0) || (i =? 3) then rod_is p else ring_is p) (if i <? 2 then ring_bottom parse p else ring_top parse p) j (w_vertex v).
Proof.
  intros E K. unfold ring_vertices in E. unfold ring_row, with_normals in E. change (rod_radius p) with (rod_is p) in E. change (ring_radius p) with (ring_is p) in E. revert E. generalize (ring_bottom parse p) (ring_top parse p) (rod_is p) (ring_is p) (Plunger_width p). intros y1 y2 r1 r2 zc E.
  assert (L16 : forall n : Vec3, zlen (repeat n (Z.to_nat lathe_points)) = 16) by (intros n; unfold zlen; rewrite repeat_length; reflexivity).
  assert (LN : forall y r, zlen (ring_normals zc (lathe_ring sin cos y zc r)) = 16) by (intros; rewrite normals_len; apply lathe_len).
  assert (LC : forall a b t, ring16 a -> ring16 b -> List.length (chain [a; b] [t]) = 32%nat) by (intros a b t A B; pose proof (two_chain a b t A B) as T; unfold zlen in T; lia).
  assert (RA : forall y r n, zlen n = 16 -> ring16 (lathe_ring sin cos y zc r, n)) by (intros; split; cbn [fst snd]; [apply lathe_len|assumption]).
  apply (nth_app3 _ _ _ _ _ 32) in E; [|apply LC; apply RA; apply L16|apply LC; apply RA; apply LN|apply LC; apply RA; apply L16]. destruct E as [_ [[K1 E]|[[K1 E]|[K1 E]]]].
  - apply pair_place in E; [|apply L16|apply L16]. rewrite Z2Nat.id in E by lia. destruct (on_strips k) as [i j]. cbn [fst snd] in E. destruct E as [[-> | ->] E]; exact E.
  - apply pair_place in E; [|apply LN|apply LN]. replace (Z.of_nat (Z.to_nat k - 32)) with (k - 32) in E by lia. replace k with (32 * 1 + (k - 32)) by lia. rewrite on_strips_shift. destruct (on_strips (k - 32)) as [i j]. cbn [fst snd] in *. destruct E as [[-> | ->] E]; exact E.
  - apply pair_place in E; [|apply L16|apply L16]. replace (Z.of_nat (Z.to_nat k - 2 * 32)) with (k - 64) in E by lia. replace k with (32 * 2 + (k - 64)) by lia. rewrite on_strips_shift. destruct (on_strips (k - 64)) as [i j]. cbn [fst snd] in *. destruct E as [[-> | ->] E]; exact E.
Qed.
(** Every vertex but the centres of the discs is on a circle about the axis, and vertices with the same place are at the same point. The tip goes from the end of the stroke, the ring follows after the gap, and the rod and its rings go from the end of the ring towards the height. *)
Theorem C68_places : forall sin cos parse checked p r, let points := parse_tip_shape parse (Plunger_tip_shape p) in
  fits points p -> build_plunger_meshes sin cos parse checked p = Ok r -> forall m k v, 0 <= k -> nth_error (fst m) (Z.to_nat k) = Some v ->
  (pl_flat_rod r = Some m -> let '(i, j) := on_flat_rod k in 0 <= i -> on_circle sin cos (mul32 (Plunger_width p) f32_1_25) (rod_is p) (if i =? 0 then Plunger_height p else neg_f32 (Plunger_stroke p)) j (w_vertex v)) /\
  (pl_rod r = Some m -> let '(i, j) := on_rod k in 0 <= i -> on_circle sin cos (Plunger_width p) (rod_is p) (on_the_way (ring_ends p points) (Plunger_height p) i 4) j (w_vertex v)) /\
  (pl_ring r = Some m -> let '(i, j) := on_strips k in on_circle sin cos (Plunger_width p) (if (i =? 0) || (i =? 3) then rod_is p else ring_is p) (if i <? 2 then ring_begins p points else ring_ends p points) j (w_vertex v)) /\
  (pl_tip r = Some m -> 2 <= zlen points -> let '(i, j) := on_strips k in exists t, nth_error points (Z.to_nat i) = Some t /\ on_circle sin cos (Plunger_width p) (mul32 (Plunger_width p) (tip_r t)) (add32 (neg_f32 (Plunger_stroke p)) (tip_y t)) j (w_vertex v)).
Proof.
  intros sin cos parse checked p r. cbv zeta. intros FT E m k v K N. destruct (parts_are _ _ _ _ _ _ FT E) as (A & B & C & D & _). clear E FT. split; [|split; [|split]].
  - intros M. rewrite (A m M) in N. exact (flat_place sin cos p k v N K).
  - intros M. rewrite (B m M) in N. exact (rod_place sin cos parse p k v N K).
  - intros M. rewrite (C m M) in N. exact (ring_place sin cos parse p k v N K).
  - intros M L. destruct (D m M) as [_ X]. rewrite (X L) in N. pose proof (tip_place sin cos parse p k v L N K) as H. destruct (on_strips k) as [i j]. exact H.
Qed.
Print Assumptions C68_places.

(** ** The picture *)
Definition band (low high : R) (w : wrapper) : Prop := finite32 (v_tu (w_vertex w)) /\ finite32 (v_tv (w_vertex w)) /\ (0 <= real (v_tu (w_vertex w)) <= 1)%R /\ (low <= real (v_tv (w_vertex w)) <= high)%R.
Definition level (low high : R) (x : f32) : Prop := finite32 x /\ (low <= real x <= high)%R.
Lemma chain_band low high l tvs : Forall ring16 l -> zlen l = zlen tvs + 1 -> (forall a b, In (a, b) tvs -> level low high a /\ level low high b) -> Forall (band low high) (chain l tvs).
Proof.
  intros F L T. apply Forall_forall. intros v I. apply In_nth_error in I. destruct I as (k & E). assert (K : 0 <= Z.of_nat k < 32 * zlen tvs). { rewrite <- (chain_len l tvs F L). assert (k < List.length (chain l tvs))%nat by (apply nth_error_Some; congruence). unfold zlen. lia. }
  destruct (chain_nth l tvs (Z.of_nat k) F L K) as (ring & normals & p & n & t1 & t2 & _ & _ & _ & TV & C). rewrite Nat2Z.id, E in C. injection C as ->. pose proof (on_strips_range _ _ K) as [_ R2]. destruct (around_unit _ R2) as [U1 U2]. destruct (T t1 t2 (nth_error_In _ _ TV)) as [A B].
  unfold band. cbn [w_vertex new_vertex v_tu v_tv]. destruct (Z.of_nat k mod 32 <? 16); [exact (conj U1 (conj (proj1 A) (conj U2 (proj2 A))))|exact (conj U1 (conj (proj1 B) (conj U2 (proj2 B))))].
Qed.
Lemma half_unit : level 0 1 f32_half.
Proof. destruct half_within as [F V]. destruct quarters as (_ & _ & Q & _). split; [apply fin_finite, F|]. rewrite real_val by exact F. rewrite Q. lra. Qed.
Lemma disc_band low high cos ring normal tv : bounded_function cos -> zlen ring = 16 -> level low high tv -> Forall (band low high) (disc cos ring normal tv).
Proof.
  intros B R [T1 T2]. unfold disc. destruct half_unit as [H1 H2]. constructor; [exact (conj H1 (conj T1 (conj H2 T2)))|]. apply Forall_map, Forall_forall. intros [i q] I. apply in_combine_l, steps_in in I. destruct (cap_unit cos i B I) as [C1 C2]. cbn [fst snd]. exact (conj C1 (conj T1 (conj C2 T2))).
Qed.
Lemma helix_in sin cos parse p l : forall y dy h, In h (helix sin cos parse p l y dy) -> In (fst (fst h)) l.
Proof. induction l as [|i l IH]; intros y dy h I; [destruct I|]. cbn [helix] in I. destruct I as [<-|I]; [left; reflexivity|right; apply (IH _ _ _ I)]. Qed.
Lemma coil_vertex_tu sin cos p h j : v_tu (w_vertex (coil_vertex sin cos p h j)) = mul32 (add32 (sin (helix_angle p (fst (fst h)))) f32_one) f32_half /\ v_tv (w_vertex (coil_vertex sin cos p h j)) = add32 f32_0_76 (mul32 (div32 (int32 j) (int32 8)) f32_0_22).
Proof. destruct h as [[i c] t]. unfold coil_vertex. destruct (coil_basis t) as [n b]. split; exact eq_refl. Qed.
Lemma band_of low high w a b : v_tu (w_vertex w) = a -> v_tv (w_vertex w) = b -> finite32 a /\ (0 <= real a <= 1)%R -> finite32 b /\ (low <= real b <= high)%R -> band low high w.
Proof. intros <- <- [A1 A2] [B1 B2]. exact (conj A1 (conj B1 (conj A2 B2))). Qed.
Lemma coil_vertex_band sin cos p h j : bounded_function sin -> finite32 (helix_angle p (fst (fst h))) -> 0 <= j < 8 -> band (3 / 4) 1 (coil_vertex sin cos p h j).
Proof.
  intros B HF J. destruct (coil_vertex_tu sin cos p h j) as [E1 E2]. apply (band_of _ _ _ _ _ E1 E2); [|exact (coil_band j J)]. exact (wave_unit _ (FlatReals.bounded_at sin _ B HF)).
Qed.
Lemma coil_rows sin cos p (l : list (Z * Vec3 * Vec3)) n : bounded_function sin -> (forall i, 0 <= i < n -> finite32 (helix_angle p i)) -> (forall h, In h l -> 0 <= fst (fst h) < n) -> Forall (band (3 / 4) 1) (flat_map (fun h => map (coil_vertex sin cos p h) (steps 8)) l).
Proof.
  intros B A I. apply Forall_forall. intros w W. apply in_flat_map in W. destruct W as (h & H & W). apply in_map_iff in W. destruct W as (j & <- & J). apply steps_in in J. apply coil_vertex_band; [exact B| |exact J]. apply A, I, H.
Qed.
Lemma helix_steps sin cos parse p n y dy h : In h (helix sin cos parse p (steps n) y dy) -> 0 <= fst (fst h) < n.
Proof. intros H. apply helix_in, steps_in in H. exact H. Qed.
Lemma spring_band sin cos parse p : bounded_function sin -> moderate (turns p) -> (/ 2 <= real (turns p))%R -> Forall (band (3 / 4) 1) (spring_vertices sin cos parse p).
Proof.
  intros B M T. unfold spring_vertices, spring_line. apply (coil_rows sin cos p _ (rings p)); [exact B|exact (fun i I => helix_finite p i M T I)|exact (helix_steps sin cos parse p (rings p) (ring_top parse p) (dy_end p))].
Qed.
Lemma last_sorted l : StronglySorted (fun a b => le32 (tip_y a) (tip_y b)) l -> forall t, In t l -> le32 (tip_y t) (last (map tip_y l) f32_zero) \/ tip_y t = last (map tip_y l) f32_zero.
Proof.
  induction 1 as [|a l S IH F]; intros t I; [destruct I|]. destruct l as [|b l]; [destruct I as [<-|[]]; right; reflexivity|]. change (last (map tip_y (a :: b :: l)) f32_zero) with (last (map tip_y (b :: l)) f32_zero). destruct I as [<-|I]; [|apply IH, I].
  left. assert (X : In (last (map tip_y (b :: l)) f32_zero) (map tip_y (b :: l))). { clear. revert b. induction l as [|c l IH]; intros b; [left; reflexivity|right; apply IH]. }
  apply in_map_iff in X. destruct X as (u & <- & U). rewrite Forall_forall in F. apply F, U.
Qed.
Lemma tip_band sin cos parse p : let points := parse_tip_shape parse (Plunger_tip_shape p) in 2 <= zlen points -> moderate (tip_end points) -> (/ 1000000 <= real (tip_end points))%R ->
  (forall t, In t points -> finite32 (tip_y t) /\ (0 <= real (tip_y t))%R) -> Forall (band 0 (/ 4)) (chain (tip_rings sin cos parse p) (tip_tvs parse p)).
Proof.
  cbv zeta. intros L M P Y. destruct (tip_tvs_len sin cos parse p ltac:(lia)) as [L1 L2]. apply chain_band; [apply tip_16|exact L1|]. set (points := parse_tip_shape parse (Plunger_tip_shape p)) in *.
  assert (X : forall x, In x (map (tip_tv (tip_length parse p)) points) -> level 0 (/ 4) x).
  { intros x I. apply in_map_iff in I. destruct I as (t & <- & I). change (tip_length parse p) with (tip_end points). apply moderate_within in M. pose proof M as [FM _]. rewrite real_val in P by exact FM. destruct (Y t I) as [FY PY]. apply PropertiesRubber.finite_fin in FY. rewrite real_val in PY by exact FY.
    apply share_quarter; [exact M|apply (Rle_trans _ (/ 1000000)); [change (pow2 (-20)) with (/ IZR 1048576)%R; lra|exact P]|exact FY|]. split; [exact PY|].
    assert (S : StronglySorted (fun a b => le32 (tip_y a) (tip_y b)) points). { destruct (C68_tip_points parse (Plunger_tip_shape p)) as (pa & fo & _ & _ & _ & _ & _ & S). apply S. intros u U. destruct (Y u U) as [FU _]. apply PropertiesRubber.finite_fin in FU. apply WallsReals.fin_not_nan, FU. }
    destruct (last_sorted points S t I) as [Q|Q]; [apply (le_val _ _ FY FM) in Q; exact Q|unfold tip_end; rewrite Q; apply Rle_refl]. }
  intros a b I. unfold tip_tvs in I. fold points in I. pose proof (in_combine_l _ _ _ _ I) as I1. pose proof (in_combine_r _ _ _ _ I) as I2. split; apply X; [exact I1|]. destruct (map (tip_tv (tip_length parse p)) points); [destruct I2|right; exact I2].
Qed.
(** The picture has four bands: the tip, the ring, the rod and the spring; the flat rod has all of it. *)
Theorem C68_texture : forall sin cos parse checked p r, let points := parse_tip_shape parse (Plunger_tip_shape p) in
  fits points p -> bounded_function sin -> bounded_function cos -> build_plunger_meshes sin cos parse checked p = Ok r -> forall m,
  (pl_flat_rod r = Some m -> in_band 0 1 m) /\ (pl_rod r = Some m -> in_band (/ 2) (3 / 4) m) /\ (pl_ring r = Some m -> in_band (/ 4) (/ 2) m) /\
  (pl_tip r = Some m -> moderate (tip_end points) -> (/ 1000000 <= real (tip_end points))%R -> (forall t, In t points -> finite32 (tip_y t) /\ (0 <= real (tip_y t))%R) -> in_band 0 (/ 4) m) /\
  (pl_spring r = Some m -> moderate (turns p) -> (/ 2 <= real (turns p))%R -> in_band (3 / 4) 1 m).
Proof.
  intros sin cos parse checked p r. cbv zeta. intros FT BS BC E m. destruct (parts_are _ _ _ _ _ _ FT E) as (A & B & C & D & G). clear E FT. unfold in_band. split; [|split; [|split; [|split]]].
  - intros M. rewrite (A m M). cbn [fst]. unfold flat_vertices. apply Forall_app. split; [|apply Forall_app; split].
    + apply (chain_band 0 1); [apply flat_16|reflexivity|]. intros a b [I|[]]. injection I as <- <-. split; apply flat_band; cbn; tauto.
    + apply (disc_band 0 1); [exact BC|apply lathe_len|apply flat_band; cbn; tauto].
    + apply (disc_band 0 1); [exact BC|apply lathe_len|apply flat_band; cbn; tauto].
  - intros M. rewrite (B m M). cbn [fst]. unfold rod_vertices. apply Forall_app. split.
    + apply (chain_band (/ 2) (3 / 4)); [apply rod_16|reflexivity|]. intros a b I. apply in_map_iff in I. destruct I as (i & I & S). injection I as <- <-. apply steps_in in S. split; apply rod_band; lia.
    + apply (disc_band (/ 2) (3 / 4)); [exact BC|apply lathe_len|exact cap_band].
  - intros M. rewrite (C m M). cbn [fst]. unfold ring_vertices. apply Forall_app. split; [|apply Forall_app; split].
    + apply (chain_band (/ 4) (/ 2)); [constructor; [apply all_16|constructor; [apply all_16|constructor]]|reflexivity|]. intros a b [I|[]]. injection I as <- <-. split; apply ring_band; cbn; tauto.
    + apply (chain_band (/ 4) (/ 2)); [constructor; [apply with_normals_16, row_len|constructor; [apply with_normals_16, row_len|constructor]]|reflexivity|]. intros a b [I|[]]. injection I as <- <-. split; apply ring_band; cbn; tauto.
    + apply (chain_band (/ 4) (/ 2)); [constructor; [apply all_16|constructor; [apply all_16|constructor]]|reflexivity|]. intros a b [I|[]]. injection I as <- <-. split; apply ring_band; cbn; tauto.
  - intros M MD P Y. destruct (D m M) as [D1 D2]. destruct (Z_lt_ge_dec (zlen (parse_tip_shape parse (Plunger_tip_shape p))) 2) as [L|L]; [rewrite (D1 L); constructor|]. rewrite (D2 ltac:(lia)). cbn [fst]. apply (tip_band sin cos parse p); [lia|exact MD|exact P|exact Y].
  - intros M MD P. destruct (G m M) as [D1 D2]. destruct (Z_lt_ge_dec (rings p) 2) as [L|L]; [rewrite (D1 L); constructor|]. rewrite (D2 ltac:(lia)). cbn [fst]. apply (spring_band sin cos parse p BS MD P).
Qed.
Print Assumptions C68_texture.

(** ** The spring *)
Definition point_at (h : Z * Vec3 * Vec3) : f32 * f32 * f32 := let '(_, c, _) := h in (vec_x c, vec_y c, vec_z c).
Lemma helix_rows sin cos parse p (A B : f32) : let E := end_segments p in (forall a dy, (a <= E -> dy = A) -> (E < a -> dy = B) -> helix_dy parse p a dy = if a <? E then A else B) ->
  forall n a y dy, (a <= E -> dy = A) -> (E < a -> dy = B) -> forall i, (i < n)%nat -> let l := helix sin cos parse p (map (fun k => a + Z.of_nat k) (seq 0 n)) y dy in
  exists h, nth_error l i = Some h /\ point_at h = (add32 f32_zero (mul32 (spring_radius p) (cos (helix_angle p (a + Z.of_nat i)))), snd (fst (point_at h)), add32 (Plunger_width p) (mul32 (spring_radius p) (sin (helix_angle p (a + Z.of_nat i))))) /\
    (i = 0%nat -> snd (fst (point_at h)) = y) /\
    (forall g, nth_error l (S i) = Some g -> snd (fst (point_at g)) = add32 (snd (fst (point_at h))) (if a + Z.of_nat i <? E then A else B)).
Proof.
  cbv zeta. intros ST. induction n as [|n IH]; intros a y dy D1 D2 i I; [lia|]. cbn [seq map helix]. replace (a + Z.of_nat 0) with a by lia. rewrite (ST a dy D1 D2). rewrite <- seq_shift, map_map. rewrite (map_ext (fun x => a + Z.of_nat (S x)) (fun k => (a + 1) + Z.of_nat k)) by (intros; lia).
  assert (N1 : a + 1 <= end_segments p -> (if a <? end_segments p then A else B) = A) by (intros; replace (a <? end_segments p) with true by lia; reflexivity).
  assert (N2 : end_segments p < a + 1 -> (if a <? end_segments p then A else B) = B) by (intros; replace (a <? end_segments p) with false by lia; reflexivity).
  set (d := if a <? end_segments p then A else B) in *. destruct i as [|i].
  - cbn [nth_error]. eexists. split; [reflexivity|]. replace (a + Z.of_nat 0) with a by lia. split; [reflexivity|]. split; [reflexivity|]. intros g G. fold d. destruct n as [|n]; [discriminate|]. destruct (IH (a + 1) (add32 y d) d N1 N2 0%nat ltac:(lia)) as (h & H1 & _ & H2 & _). change (nth_error (helix sin cos parse p (map (fun k => a + 1 + Z.of_nat k) (seq 0 (S n))) (add32 y d) d) 0 = Some g) in G. rewrite H1 in G. injection G as <-. exact (H2 eq_refl).
  - cbn [nth_error]. destruct (IH (a + 1) (add32 y d) d N1 N2 i ltac:(lia)) as (h & H1 & H2 & _ & H4). exists h. replace (a + Z.of_nat (S i)) with (a + 1 + Z.of_nat i) by lia. split; [exact H1|]. split; [exact H2|]. split; [discriminate|exact H4].
Qed.
Lemma coil_on_wire sin cos p h j : on_wire (Plunger_spring_gauge p) (point_at h) (w_vertex (coil_vertex sin cos p h j)).
Proof. destruct h as [[i c] t]. unfold coil_vertex, on_wire. destruct (coil_basis t) as [n b]. cbn [point_at fst snd w_vertex new_vertex v_x v_y v_z v_nx v_ny v_nz vec_x vec_y vec_z]. split; [reflexivity|split; reflexivity]. Qed.
Lemma rows_lookup {A} (f : A -> Z -> wrapper) l k v : nth_error (flat_map (fun h => map (f h) (steps 8)) l) k = Some v -> exists h j, nth_error l (k / 8) = Some h /\ v = f h j.
Proof.
  intros E. rewrite flat_map_concat_map in E. replace k with (k / 8 * 8 + k mod 8)%nat in E by (pose proof (Nat.div_mod k 8 ltac:(lia)); lia). rewrite concat_nth in E; [|apply Forall_map, Forall_forall; intros h _; rewrite map_length; reflexivity|apply Nat.mod_upper_bound; lia].
  rewrite nth_error_map in E. destruct (nth_error l (k / 8)) as [h|] eqn:H; cbn [option_map] in E; [|discriminate]. rewrite nth_error_map in E. destruct (nth_error (steps 8) (k mod 8)) as [j|]; cbn [option_map] in E; [|discriminate]. injection E as <-. exists h, j. auto.
Qed.
Definition line_of (l : list (Z * Vec3 * Vec3)) (i : Z) : f32 * f32 * f32 := match nth_error l (Z.to_nat i) with Some h => point_at h | None => (f32_zero, f32_zero, f32_zero) end.
Lemma wound sin cos parse p n y : 2 <= n -> let l := helix sin cos parse p (steps n) y (dy_end p) in
  snd (fst (line_of l 0)) = y /\
  (exists at_ends others, forall i, 0 <= i < n - 1 -> snd (fst (line_of l (i + 1))) = add32 (snd (fst (line_of l i))) (if i <? end_segments p then at_ends else others)) /\
  (forall i, 0 <= i < n -> fst (fst (line_of l i)) = add32 f32_zero (mul32 (spring_radius p) (cos (helix_angle p i))) /\ snd (line_of l i) = add32 (Plunger_width p) (mul32 (spring_radius p) (sin (helix_angle p i)))) /\
  (forall k v, nth_error (flat_map (fun h => map (coil_vertex sin cos p h) (steps 8)) l) k = Some v -> on_wire (Plunger_spring_gauge p) (line_of l (Z.of_nat k / 8)) (w_vertex v)).
Proof.
  intros N. cbv zeta. set (B := if 0 <? main_segments p then dy_main parse p else dy_end p).
  assert (ST : forall a dy, (a <= end_segments p -> dy = dy_end p) -> (end_segments p < a -> dy = B) -> helix_dy parse p a dy = if a <? end_segments p then dy_end p else B).
  { intros a dy D1 D2. unfold helix_dy, B in *. clear B. revert D1 D2. generalize (end_segments p) (main_segments p) (dy_end p) (dy_main parse p). intros E M x z D1 D2. destruct (a =? E) eqn:AE; cbn [andb]; [replace (a <? E) with false by lia; destruct (0 <? M); [reflexivity|apply D1; lia]|]. destruct (a <? E) eqn:AL; [apply D1; lia|apply D2; lia]. }
  pose proof (to_uint_nonneg 18446744073709551615 (f32_value (mul32 (Plunger_spring_end_loops p) (int32 24))) ltac:(lia)) as E0. fold (end_segments p) in E0.
  pose proof (helix_rows sin cos parse p (dy_end p) B ST (Z.to_nat n) 0 y (dy_end p) (fun _ => eq_refl) ltac:(intros; lia)) as H. cbv zeta in H. change (map (fun k => 0 + Z.of_nat k) (seq 0 (Z.to_nat n))) with (steps n) in H. clear ST E0. set (l := helix sin cos parse p (steps n) y (dy_end p)) in *. clearbody l B.
  split; [|split; [|split]].
  - destruct (H 0%nat ltac:(lia)) as (h & H1 & _ & H2 & _). unfold line_of. change (Z.to_nat 0) with 0%nat. rewrite H1. exact (H2 eq_refl).
  - exists (dy_end p), B. intros i I. destruct (H (Z.to_nat i) ltac:(lia)) as (h & H1 & _ & _ & H4). destruct (H (S (Z.to_nat i)) ltac:(lia)) as (g & G1 & _). unfold line_of. replace (Z.to_nat (i + 1)) with (S (Z.to_nat i)) by lia. rewrite H1, G1. rewrite (H4 g G1). replace (0 + Z.of_nat (Z.to_nat i)) with i by lia. reflexivity.
  - intros i I. destruct (H (Z.to_nat i) ltac:(lia)) as (h & H1 & H2 & _). unfold line_of. rewrite H1. replace (0 + Z.of_nat (Z.to_nat i)) with i in H2 by lia. rewrite H2. split; reflexivity.
  - intros k v E. apply rows_lookup in E. destruct E as (h & j & E & ->). unfold line_of. replace (Z.to_nat (Z.of_nat k / 8)) with (k / 8)%nat by (change 8 with (Z.of_nat 8); rewrite <- Nat2Z.inj_div; lia). rewrite E. apply coil_on_wire.
Qed.
Lemma angle_eq p i : helix_angle p i = turn_angle p i.
Proof. unfold helix_angle, turn_angle. rewrite total_rings. exact eq_refl. Qed.
Lemma radius_eq p : spring_radius p = spring_is p. Proof. exact eq_refl. Qed.
Lemma ends_eq p : end_segments p = end_rings p. Proof. exact eq_refl. Qed.
(** The spring is a wire along a line that winds round the rod from the end of the ring, with one step for the turns at the end and another one for the others. *)
Theorem C68_spring : forall sin cos parse checked p r m, let points := parse_tip_shape parse (Plunger_tip_shape p) in
  fits points p -> build_plunger_meshes sin cos parse checked p = Ok r -> pl_spring r = Some m -> 2 <= rings p ->
  exists line, winds sin cos p (ring_ends p points) line /\ forall k v, nth_error (fst m) k = Some v -> on_wire (Plunger_spring_gauge p) (line (fst (on_ring 8 (Z.of_nat k)))) (w_vertex v).
Proof.
  intros sin cos parse checked p r m. cbv zeta. intros FT E M L. destruct (parts_are _ _ _ _ _ _ FT E) as (_ & _ & _ & _ & G). destruct (G m M) as [_ X]. rewrite (X L). clear X G M E FT. destruct (wound sin cos parse p (rings p) (ring_top parse p) L) as (W1 & W2 & W3 & W4). cbn [fst].
  exists (line_of (helix sin cos parse p (steps (rings p)) (ring_top parse p) (dy_end p))). split; [|exact W4]. clear W4. revert W1 W2 W3. generalize (line_of (helix sin cos parse p (steps (rings p)) (ring_top parse p) (dy_end p))). intros line W1 W2 W3. split; [exact W1|]. split; [rewrite <- ends_eq; exact W2|]. intros i I. destruct (W3 i I) as [A B]. rewrite angle_eq, radius_eq in A. rewrite angle_eq, radius_eq in B. split; [exact A|exact B].
Qed.
Print Assumptions C68_spring.

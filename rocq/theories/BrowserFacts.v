(** Meshes written and read by the browser interface. *)
From Coq Require Import Floats.SpecFloat ZifyBool.
From Verif Require Import Base Text Image Sound Quantize ColorText JsonFloat Cfb Mesh SpecMesh SpecColor Common BaseFacts BiffFacts CommonFacts ColorFacts FlipFacts MeshFacts ObjFacts ObjRoundTrip Browser SpecBrowser.

(** ** Arrays and vertices *)
Definition xyz (v : Vtx) : list f32 := [v_x v; v_y v; v_z v].
Definition uv (v : Vtx) : list f32 := [v_tu v; v_tv v].
Definition nxyz (v : Vtx) : list f32 := [v_nx v; v_ny v; v_nz v].
Definition three {A} (t : A * A * A) : list A := let '(a, b, c) := t in [a; b; c].
Lemma take3 {A} (l : list A) n : List.length l = (3 * S n)%nat -> exists a b c l', l = a :: b :: c :: l' /\ List.length l' = (3 * n)%nat.
Proof. destruct l as [|a [|b [|c l']]]; cbn; intros H; try lia. exists a, b, c, l'. split; [reflexivity|lia]. Qed.
Lemma take2 {A} (l : list A) n : List.length l = (2 * S n)%nat -> exists a b l', l = a :: b :: l' /\ List.length l' = (2 * n)%nat.
Proof. destruct l as [|a [|b l']]; cbn; intros H; try lia. exists a, b, l'. split; [reflexivity|lia]. Qed.
Lemma vertices_of n : forall p t m, List.length p = (3 * n)%nat -> List.length t = (2 * n)%nat -> List.length m = (3 * n)%nat ->
  exists vs, p = flat_map xyz vs /\ t = flat_map uv vs /\ m = flat_map nxyz vs /\ List.length vs = n.
Proof.
  induction n as [|n IH]; intros p t m Hp Ht Hm.
  - destruct p, t, m; try discriminate. exists []. repeat split.
  - destruct (take3 _ _ Hp) as (x & y & z & p' & -> & Hp'). destruct (take2 _ _ Ht) as (u & v & t' & -> & Ht'). destruct (take3 _ _ Hm) as (a & b & c & m' & -> & Hm').
    destruct (IH _ _ _ Hp' Ht' Hm') as (vs & -> & -> & -> & L). exists (mkVtx x y z a b c u v :: vs). cbn. rewrite L. repeat split.
Qed.
Lemma triples_of {A} n : forall l : list A, List.length l = (3 * n)%nat -> exists ts, l = flat_map three ts /\ List.length ts = n.
Proof.
  induction n as [|n IH]; intros l H; [destruct l; [exists []; split; reflexivity|discriminate]|].
  destruct (take3 _ _ H) as (a & b & c & l' & -> & H'). destruct (IH _ H') as (ts & -> & L). exists ((a, b, c) :: ts). cbn. rewrite L. split; reflexivity.
Qed.
Lemma chunks3_three {A} (ts : list (A * A * A)) : chunks3 (flat_map three ts) = ts.
Proof. induction ts as [|[[a b] c] ts IH]; [reflexivity|]. cbn. rewrite IH. reflexivity. Qed.
Lemma chunks3_map {A B} (f g h : B -> A) (vs : list B) : chunks3 (flat_map (fun v => [f v; g v; h v]) vs) = map (fun v => (f v, g v, h v)) vs.
Proof. induction vs as [|v vs IH]; [reflexivity|]. cbn. rewrite IH. reflexivity. Qed.
Lemma chunks2_map {A B} (f g : B -> A) (vs : list B) : chunks2 (flat_map (fun v => [f v; g v]) vs) = map (fun v => (f v, g v)) vs.
Proof. induction vs as [|v vs IH]; [reflexivity|]. cbn. rewrite IH. reflexivity. Qed.
Lemma seconds_map {A B} (f g : B -> A) (vs : list B) : seconds (flat_map (fun v => [f v; g v]) vs) = map g vs.
Proof. induction vs as [|v vs IH]; [reflexivity|]. cbn. rewrite IH. reflexivity. Qed.
Lemma flat3_len {A B} (f : B -> list A) k (vs : list B) : (forall b, List.length (f b) = k) -> List.length (flat_map f vs) = (k * List.length vs)%nat.
Proof. intros H. induction vs as [|v vs IH]; [cbn; lia|]. cbn [flat_map List.length]. rewrite app_length, IH, H. lia. Qed.
Lemma three_len {A} (t : A * A * A) : List.length (three t) = 3%nat.
Proof. destruct t as [[a b] c]. reflexivity. Qed.
Lemma map_res_all {A B} (f : A -> res B) l r : map_res f l = Ok r -> Forall (fun a => exists b, f a = Ok b) l.
Proof.
  revert r. induction l as [|a l IH]; intros r H; [constructor|]. cbn in H. destruct (f a) as [b|] eqn:E; [|discriminate]. cbn in H.
  destruct (map_res f l) as [bs|] eqn:E2; [|discriminate]. constructor; [exists b; exact E|exact (IH bs eq_refl)].
Qed.
Lemma map_res_err {A B} (f : A -> res B) l : (forall a, In a l -> (exists b, f a = Ok b) \/ f a = Err) -> (exists r, map_res f l = Ok r) \/ map_res f l = Err.
Proof.
  induction l as [|a l IH]; intros H; [left; exists []; reflexivity|]. cbn. destruct (H a (or_introl eq_refl)) as [[b ->]| ->]; [|right; reflexivity]. cbn.
  destruct IH as [[r ->]| ->]; [intros x I; apply H; right; exact I|left; eexists; reflexivity|right; reflexivity].
Qed.

Section RoundTrip.
Context {num : Type} (print32 : f32 -> num) (print64 : f64 -> num) (print64_digits : nat -> f64 -> num) (parse64 : num -> option f64) (estimate : f32 -> nat).
Hypothesis NT : number_texts print32 print64 parse64.
Notation flipped_v := (flipped_v num print32 print64 print64_digits parse64 estimate).
Notation recovers := (recovers num parse64).
Notation mesh_to_obj := (mesh_to_obj num print32 print64 print64_digits parse64 estimate).
Notation obj_to_mesh := (obj_to_mesh num parse64).
Notation read_lines := (read_lines num parse64).
Notation rr := (rr print32 parse64).
Notation fv := (fv print32 print64 print64_digits parse64 estimate).

(** ** The mirrored texture coordinates *)
Lemma find_probe_last fl tv : forall n p, recovers tv (print64_digits (n + p)%nat fl) = true -> exists s, find_probe num print64_digits parse64 fl tv (S n) p = Some s.
Proof.
  induction n as [|n IH]; intros p H.
  - cbn [find_probe]. unfold probe. cbn [Nat.add] in H. rewrite H. eexists. reflexivity.
  - cbn [find_probe]. destruct (probe _ _ _ fl tv p) as [s|]; [eexists; reflexivity|]. apply (IH (S p)).
    replace (n + S p)%nat with (S n + p)%nat by lia. exact H.
Qed.
Lemma kept_recovers tv s : (exists w, parse64 s = Some w /\ as_f32 (one_minus w) = tv) -> recovers tv s = true.
Proof. intros (w & E & A). unfold Mesh.recovers. rewrite E. apply w32_eqb_eq. exact A. Qed.
Lemma mirrored_exact tv : (1 <= estimate tv <= 17)%nat -> mirrored print32 print64_digits parse64 tv -> snd (flipped_v tv) = true.
Proof.
  intros B (N & M). unfold Mesh.flipped_v. rewrite N. cbv zeta. destruct (_ && _) eqn:SS; [reflexivity|].
  destruct (Mesh.recovers num parse64 tv (print32 _)) eqn:R; [reflexivity|].
  destruct M as [[A1 A2]|[K|K]].
  - rewrite A1, A2 in SS. discriminate.
  - rewrite (kept_recovers _ _ K) in R. discriminate.
  - apply kept_recovers in K. unfold shortest_recovering_text.
    destruct (probe _ _ _ _ tv (estimate tv)) as [s|] eqn:P; [reflexivity|].
    destruct (Nat.eq_dec (estimate tv) 17) as [E|E].
    + unfold probe in P. rewrite E, K in P. discriminate.
    + replace (17 - estimate tv)%nat with (S (16 - estimate tv)) by lia.
      destruct (find_probe_last (one_minus (f64_of_f32 (f32_value tv))) tv (16 - estimate tv) (S (estimate tv))) as (s & ->); [|reflexivity].
      replace (16 - estimate tv + S (estimate tv))%nat with 17%nat by lia. exact K.
Qed.

(** ** What is written *)
Definition sgn (c : bool) (z : f32) : f32 := if c then neg_f32 z else z.
Definition vtext (c : bool) (v : f32) : num := if c then fst (flipped_v v) else print32 v.
Definition index_corner_line (x : u32) : N * option N * option N := let n := Z.to_N ((w32_to_Z x + 1) mod 4294967296) in (n, Some n, Some n).
Definition triangle_face (c : bool) (t : u32 * u32 * u32) : line num :=
  let '(i, j, k) := t in
  LFace (if c then [index_corner_line k; index_corner_line j; index_corner_line i] else [index_corner_line i; index_corner_line j; index_corner_line k]).
Definition object_name (name : rstring) : rstring := match name with [] => lit "object" | _ => name end.
Definition mesh_lines (name comment : rstring) (c : bool) (vs : list Vtx) (ts : list (u32 * u32 * u32)) : list (line num) :=
  [LComment comment; LObject (object_name name)] ++
  map (fun v => LVertex (print32 (v_x v)) (print32 (v_y v)) (print32 (sgn c (v_z v))) None) vs ++
  map (fun v => LTex (print32 (v_tu v)) (Some (vtext c (v_tv v))) None) vs ++
  map (fun v => LNormal (print32 (v_nx v)) (print32 (v_ny v)) (print32 (sgn c (v_nz v)))) vs ++
  map (triangle_face c) ts.
Definition in_range (n : Z) (t : u32 * u32 * u32) : Prop := Forall (fun i => w32_to_Z i < n) (three t).
Lemma triangle_line_spec c n t : (in_range n t /\ triangle_line num c n t = Ok (triangle_face c t)) \/ (~ in_range n t /\ triangle_line num c n t = Err).
Proof.
  destruct t as [[i j] k]. unfold triangle_line, in_range, three, triangle_face, index_corner_line. cbv zeta.
  destruct (n <=? w32_to_Z i) eqn:Ei; [right; split; [intros H; inversion H; subst; lia|reflexivity]|].
  destruct (n <=? w32_to_Z j) eqn:Ej; [right; split; [intros H; inversion H as [|? ? _ H']; subst; inversion H'; subst; lia|reflexivity]|].
  destruct (n <=? w32_to_Z k) eqn:Ek; [right; split; [intros H; inversion H as [|? ? _ H']; subst; inversion H' as [|? ? _ H2]; subst; inversion H2; subst; lia|reflexivity]|].
  left. split; [repeat (apply Forall_cons; [lia|]); constructor|reflexivity].
Qed.
Lemma in_range_flat n ts : Forall (fun i => w32_to_Z i < n) (flat_map three ts) <-> Forall (in_range n) ts.
Proof.
  induction ts as [|t ts IH]; [split; constructor|]. cbn [flat_map]. rewrite Forall_app, IH. split.
  - intros [A B]. constructor; assumption.
  - intros H. inversion H. split; assumption.
Qed.
Lemma multiple_len {A} (l : list A) n k : 0 < n -> List.length l = (Z.to_nat n * k)%nat -> multiple_of l n = true.
Proof. intros P L. unfold multiple_of, zlen. rewrite L, Nat2Z.inj_mul, Z2Nat.id by lia. rewrite Z.mul_comm, Z_mod_mult. reflexivity. Qed.
Lemma multiple_len_back {A} (l : list A) n : 0 < n -> multiple_of l n = true -> zlen l = n * (zlen l / n).
Proof. intros P M. unfold multiple_of in M. apply Z.eqb_eq in M. pose proof (Z.div_mod (zlen l) n). lia. Qed.
Lemma mesh_to_obj_written name vs ts c : Forall (in_range (zlen vs)) ts -> exists comment,
  mesh_to_obj name (flat_map xyz vs) (flat_map uv vs) (flat_map nxyz vs) (flat_map three ts) c = Ok (mesh_lines name comment c vs ts).
Proof.
  intros R. unfold Browser.mesh_to_obj.
  assert (L1 : List.length (flat_map xyz vs) = (3 * List.length vs)%nat) by (apply flat3_len; reflexivity).
  assert (L2 : List.length (flat_map uv vs) = (2 * List.length vs)%nat) by (apply flat3_len; reflexivity).
  assert (L3 : List.length (flat_map nxyz vs) = (3 * List.length vs)%nat) by (apply flat3_len; reflexivity).
  assert (L4 : List.length (flat_map three ts) = (3 * List.length ts)%nat) by (apply flat3_len; intros [[? ?] ?]; reflexivity).
  rewrite (multiple_len _ 3 (List.length vs)) by (try lia; exact L1). rewrite (multiple_len _ 2 (List.length vs)) by (try lia; exact L2).
  rewrite (multiple_len _ 3 (List.length vs)) by (try lia; exact L3). rewrite (multiple_len _ 3 (List.length ts)) by (try lia; exact L4). cbn [negb].
  assert (V : zlen (flat_map xyz vs) / 3 = zlen vs) by (unfold zlen; rewrite L1; lia).
  assert (V2 : zlen (flat_map uv vs) / 2 = zlen vs) by (unfold zlen; rewrite L2; lia).
  assert (V3 : zlen (flat_map nxyz vs) / 3 = zlen vs) by (unfold zlen; rewrite L3; lia).
  rewrite V, V2, V3, Z.eqb_refl. cbn [negb orb].
  rewrite (chunks3_three ts). unfold xyz, uv, nxyz. rewrite !chunks3_map, chunks2_map.
  rewrite (map_res_ok _ (triangle_face c)).
  - cbn [rbind]. eexists. rewrite !map_map. unfold mesh_lines, vtext. cbn [fst snd]. fold (sgn c). reflexivity.
  - intros t I. rewrite Forall_forall in R. destruct (triangle_line_spec c (zlen vs) t) as [[_ E]|[N _]]; [exact E|destruct (N (R t I))].
Qed.
Lemma mesh_arrays_parts p t m is : mesh_arrays p t m is -> exists vs ts,
  p = flat_map xyz vs /\ t = flat_map uv vs /\ m = flat_map nxyz vs /\ is = flat_map three ts /\ Forall (in_range (zlen vs)) ts.
Proof.
  intros (n & k & P & T & M & I & R).
  assert (0 <= n) by (unfold zlen in *; lia). assert (0 <= k) by (unfold zlen in *; lia).
  destruct (vertices_of (Z.to_nat n) p t m) as (vs & -> & -> & -> & L); try (unfold zlen in *; lia).
  destruct (triples_of (Z.to_nat k) is) as (ts & -> & L2); try (unfold zlen in *; lia).
  exists vs, ts. do 4 (split; [reflexivity|]). apply in_range_flat. replace (zlen vs) with n by (unfold zlen; lia). exact R.
Qed.
Lemma mesh_to_obj_ok name p t m is c ls : mesh_to_obj name p t m is c = Ok ls -> mesh_arrays p t m is.
Proof.
  unfold Browser.mesh_to_obj. intros H.
  destruct (multiple_of p 3) eqn:A; [|discriminate]. destruct (multiple_of t 2) eqn:B; [|discriminate].
  destruct (multiple_of m 3) eqn:C; [|discriminate]. destruct (multiple_of is 3) eqn:D; [|discriminate]. cbn [negb] in H.
  destruct (zlen t / 2 =? zlen p / 3) eqn:E; [|discriminate]. destruct (zlen m / 3 =? zlen p / 3) eqn:F; [|discriminate]. cbn [negb orb] in H.
  apply multiple_len_back in A, B, C, D; try lia. exists (zlen p / 3), (zlen is / 3).
  do 4 (split; [lia|]).
  destruct (map_res _ (chunks3 is)) as [fs|] eqn:M; [|discriminate]. apply map_res_all in M.
  destruct (triples_of (Z.to_nat (zlen is / 3)) is) as (ts & -> & L); [unfold zlen in *; lia|]. rewrite chunks3_three in M. apply in_range_flat.
  eapply Forall_impl; [|exact M]. intros x (b & X). destruct (triangle_line_spec c (zlen p / 3) x) as [[R _]|[_ N]]; [exact R|rewrite N in X; discriminate].
Qed.
Lemma mesh_to_obj_total name p t m is c : (exists ls, mesh_to_obj name p t m is c = Ok ls) \/ mesh_to_obj name p t m is c = Err.
Proof.
  unfold Browser.mesh_to_obj. repeat match goal with |- context [if ?b then Err else _] => destruct b; [right; reflexivity|] end. cbv zeta.
  destruct (map_res_err (triangle_line num c (zlen p / 3)) (chunks3 is)) as [[r E]|E].
  - intros a _. destruct (triangle_line_spec c (zlen p / 3) a) as [[_ E]|[_ E]]; [left; eexists; exact E|right; exact E].
  - rewrite E. left. eexists. reflexivity.
  - rewrite E. right. reflexivity.
Qed.

(** ** What is read *)
Definition pos_back c (v : Vtx) := (rr (v_x v), rr (v_y v), rr (sgn c (v_z v))).
Definition tex_v c (v : f32) : f64 := match parse64 (vtext c v) with Some w => w | None => S754_nan end.
Definition tex_back c (v : Vtx) : f32 * option f64 := (rr (v_tu v), Some (tex_v c (v_tv v))).
Definition normal_back c (v : Vtx) : obj_normal := mkNormal (rr (v_nx v)) (rr (v_ny v)) (rr (sgn c (v_nz v))) None.
Definition corner_back (x : u32) : corner := let k := (w32_to_Z x + 1) mod 4294967296 in mkCorner k k k.
Definition corners_back (c : bool) (t : u32 * u32 * u32) : list corner :=
  let '(i, j, k) := t in if c then [corner_back k; corner_back j; corner_back i] else [corner_back i; corner_back j; corner_back k].
Lemma parse_vtext c v : parse64 (vtext c v) = Some (tex_v c v).
Proof.
  unfold tex_v, vtext. destruct c.
  - destruct (flipped_v_read print32 print64 print64_digits parse64 estimate NT v) as (w & -> & _). reflexivity.
  - destruct (f32_is_nan v) eqn:N; [destruct (nt_nan _ _ _ NT v N) as (w & ->)|destruct (nt_f32 _ _ _ NT v N) as (w & -> & _)]; reflexivity.
Qed.
Lemma read_p c (vs : list Vtx) : forall fs b p t n o name,
  read_lines (map (fun v => LVertex (print32 (v_x v)) (print32 (v_y v)) (print32 (sgn c (v_z v))) None) vs) (mkReader fs b p t n o None name) =
  Ok (mkReader fs b (p ++ map (pos_back c) vs) t n o None name).
Proof.
  induction vs as [|w vs IH]; intros; [cbn; rewrite app_nil_r; reflexivity|]. cbn [map Mesh.read_lines read_line]. rewrite !(parse_rr print32 print64 parse64 NT). cbn [rbind parse_opt].
  cbn [r_faces r_needs_normalize r_vertices r_tex r_normals r_objects r_name]. rewrite IH, <- app_assoc. reflexivity.
Qed.
Lemma read_t c (vs : list Vtx) : forall fs b p t n o name,
  read_lines (map (fun v => LTex (print32 (v_tu v)) (Some (vtext c (v_tv v))) None) vs) (mkReader fs b p t n o None name) =
  Ok (mkReader fs b p (t ++ map (tex_back c) vs) n o None name).
Proof.
  induction vs as [|w vs IH]; intros; [cbn; rewrite app_nil_r; reflexivity|]. cbn [map Mesh.read_lines read_line]. rewrite !(parse_rr print32 print64 parse64 NT). cbn [rbind parse_opt].
  rewrite parse_vtext. cbn [rbind r_faces r_needs_normalize r_vertices r_tex r_normals r_objects r_name]. rewrite IH, <- app_assoc. reflexivity.
Qed.
Lemma read_n c (vs : list Vtx) : forall fs b p t n o name,
  read_lines (map (fun v => LNormal (print32 (v_nx v)) (print32 (v_ny v)) (print32 (sgn c (v_nz v)))) vs) (mkReader fs b p t n o None name) =
  Ok (mkReader fs b p t (n ++ map (normal_back c) vs) o None name).
Proof.
  induction vs as [|w vs IH]; intros; [cbn; rewrite app_nil_r; reflexivity|]. cbn [map Mesh.read_lines read_line]. rewrite !(parse_rr print32 print64 parse64 NT). cbn [rbind parse_opt].
  cbn [rbind r_comment r_faces r_needs_normalize r_vertices r_tex r_normals r_objects r_name]. rewrite IH, <- app_assoc. reflexivity.
Qed.
Lemma corner_line_back x : corner_of (index_corner_line x) = corner_back x.
Proof. unfold corner_of, index_corner_line, corner_back, u32_of. cbv zeta. rewrite Z2N.id by (apply Z.mod_pos_bound; lia). rewrite Z.mod_mod by lia. reflexivity. Qed.
Lemma corner_back_matched x : matched (corner_back x) = true.
Proof. unfold matched, corner_back. cbn. rewrite !Z.eqb_refl. reflexivity. Qed.
Lemma read_f c ts : forall fs p t n o name,
  read_lines (map (triangle_face c) ts) (mkReader fs false p t n o None name) = Ok (mkReader (fs ++ map (corners_back c) ts) false p t n o None name).
Proof.
  induction ts as [|[[i j] k] l IH]; intros; [cbn; rewrite app_nil_r; reflexivity|]. cbn [map Mesh.read_lines]. unfold triangle_face at 1. cbn [read_line].
  cbv zeta. cbn [r_comment r_faces r_needs_normalize r_vertices r_tex r_normals r_objects r_name].
  destruct c; cbn [map List.length forallb]; rewrite !corner_line_back, !corner_back_matched; cbn [andb orb negb Nat.eqb rbind]; rewrite IH, <- app_assoc; reflexivity.
Qed.
Lemma read_mesh_lines name comment c vs ts :
  read_lines (mesh_lines name comment c vs ts) reader_new =
  Ok (mkReader (map (corners_back c) ts) false (map (pos_back c) vs) (map (tex_back c) vs) (map (normal_back c) vs) 1 None (object_name name)).
Proof.
  unfold mesh_lines. rewrite read_lines_app.
  match goal with |- (r' <~ ?e ;; _) = _ => assert (E : e = Ok (mkReader [] false [] [] [] 1 None (object_name name))) by reflexivity end.
  rewrite E. cbn [rbind]. clear E. rewrite read_lines_app, read_p. cbn [rbind app].
  rewrite read_lines_app, read_t. cbn [rbind app]. rewrite read_lines_app, read_n. cbn [rbind app].
  rewrite read_f. reflexivity.
Qed.
Definition face_of (t : u32 * u32 * u32) : face := let '(i, j, k) := t in mkFace (w32_to_Z i) (w32_to_Z j) (w32_to_Z k).
Definition small (t : u32 * u32 * u32) : Prop := Forall (fun i => w32_to_Z i < 4294967295) (three t).
Lemma surface_back c ts : Forall small ts ->
  map (fun t => let '(a, b, c) := t in mkFace (c_v a - 1) (c_v b - 1) (c_v c - 1)) (surface c (map (corners_back c) ts)) = map face_of ts.
Proof.
  induction ts as [|[[i j] k] ts IH]; intros H; [reflexivity|]. inversion H as [|? ? S H']; subst. cbn [map surface flat_map]. rewrite map_app. unfold surface in IH. rewrite IH by assumption.
  unfold small, three in S. inversion S as [|? ? Si S']; subst. inversion S' as [|? ? Sj S2]; subst. inversion S2 as [|? ? Sk _]; subst.
  pose proof (w32_to_Z_range i). pose proof (w32_to_Z_range j). pose proof (w32_to_Z_range k).
  destruct c; cbn [corners_back fan_of List.length map seq corner_at Nat.sub nth app]; unfold corner_back; cbn [c_v face_of]; rewrite !Z.mod_small by lia;
    (f_equal; f_equal; lia).
Qed.
Lemma read_obj_mesh name comment c vs ts : Forall small ts ->
  read_obj num parse64 (mesh_lines name comment c vs ts) c = Ok (mkObjData (object_name name) (map (pos_back c) vs) (map (tex_back c) vs) (map (normal_back c) vs) (map face_of ts)).
Proof.
  intros H. destruct (read_obj_strict parse64 (mesh_lines name comment c vs ts) c _ (read_mesh_lines name comment c vs ts) eq_refl eq_refl) as (d & E & A & B & C & D & F).
  cbn [r_name r_vertices r_tex r_normals r_faces] in *. rewrite surface_back in F by assumption. rewrite E. destruct d. cbn in *. subst. reflexivity.
Qed.
Definition no_nan_vertex (v : Vtx) : Prop := Forall (fun x => f32_is_nan x = false) [v_x v; v_y v; v_z v; v_nx v; v_ny v; v_nz v; v_tu v; v_tv v].
Lemma vertex_back c v : no_nan_vertex v -> (c = true -> snd (flipped_v (v_tv v)) = true) -> final_vertex c (pos_back c v) (tex_back c v) (normal_back c v) = v.
Proof.
  intros N X. unfold no_nan_vertex in N. repeat match goal with H : Forall _ (_ :: _) |- _ => apply Forall_cons_iff in H; destruct H end.
  unfold pos_back, tex_back, normal_back, final_vertex. cbn [fst snd n_x n_y n_z].
  assert (S : forall z, f32_is_nan z = false -> rr (sgn c z) = sgn c z).
  { intros z Hz. apply (rr_same _ _ _ NT). unfold sgn. destruct c; [rewrite neg_nan|]; exact Hz. }
  rewrite !S by assumption. rewrite !(rr_same print32 print64 parse64 NT) by assumption.
  destruct c; cbn [sgn].
  - rewrite !neg_neg. assert (E : as_f32 (one_minus (tex_v true (v_tv v))) = v_tv v).
    { unfold tex_v, vtext. specialize (X eq_refl). pose proof (fv_back print32 print64 print64_digits parse64 estimate NT _ X) as F. unfold ObjRoundTrip.fv in F.
      destruct (parse64 (fst (flipped_v (v_tv v)))); exact F. }
    rewrite E. destruct v; reflexivity.
  - assert (E : as_f32 (tex_v false (v_tv v)) = v_tv v).
    { unfold tex_v, vtext. match goal with K : f32_is_nan (v_tv v) = false |- _ => pose proof (rr_same print32 print64 parse64 NT _ K) as F end.
      unfold ObjRoundTrip.rr, parse_f32 in F. destruct (parse64 (print32 (v_tv v))) eqn:Q; [exact F|].
      match goal with K : f32_is_nan (v_tv v) = false |- _ => destruct (nt_f32 _ _ _ NT _ K) as (w & W & _); rewrite W in Q; discriminate end. }
    rewrite E. destruct v; reflexivity.
Qed.
Lemma finals c vs d fs : Forall no_nan_vertex vs -> (c = true -> Forall (fun v => snd (flipped_v (v_tv v)) = true) vs) ->
  final_vertices c (mkObjData d (map (pos_back c) vs) (map (tex_back c) vs) (map (normal_back c) vs) fs) = map (fun v => (v, None)) vs.
Proof.
  intros N X. unfold final_vertices. cbn [o_vertices o_tex o_normals]. rewrite combine_maps, map_map.
  apply map_ext_in. intros v I. rewrite Forall_forall in N. rewrite vertex_back; [reflexivity|exact (N v I)|].
  intros C. specialize (X C). rewrite Forall_forall in X. exact (X v I).
Qed.
Lemma read_mesh_back name comment c vs ts : Forall no_nan_vertex vs -> (c = true -> Forall (fun v => snd (flipped_v (v_tv v)) = true) vs) -> Forall small ts ->
  exists x, read_obj_from_reader num parse64 c (mesh_lines name comment c vs ts) = Ok x /\
    x_name x = object_name name /\ x_final x = vs /\ x_vertices x = zlen vs /\ x_faces x = map face_of ts /\ x_encoded x = flat_map vertex_bytes vs.
Proof.
  intros N X S. unfold read_obj_from_reader. rewrite read_obj_mesh by assumption. cbn [rbind]. eexists. split; [reflexivity|]. cbn [x_name x_vertices x_faces x_encoded x_final o_name o_vertices o_faces].
  rewrite finals by assumption. split; [reflexivity|]. split; [rewrite map_map; apply map_id|]. split; [unfold zlen; rewrite map_length; reflexivity|]. split; [reflexivity|].
  clear -N. induction vs as [|v vs IH]; [reflexivity|]. inversion N as [|? ? N1 N2]; subst. cbn [map flat_map fst snd]. rewrite IH by assumption. f_equal.
  unfold no_nan_vertex in N1. repeat match goal with H : Forall _ (_ :: _) |- _ => apply Forall_cons_iff in H; destruct H end.
  unfold write_vertex, put_nan_as_zero, vertex_bytes. repeat match goal with K : f32_is_nan _ = false |- _ => rewrite ?K; revert K end. intros. rewrite !app_assoc. reflexivity.
Qed.
Lemma no_nan_vertices vs : numbers (flat_map xyz vs) -> numbers (flat_map uv vs) -> numbers (flat_map nxyz vs) -> Forall no_nan_vertex vs.
Proof.
  unfold numbers. induction vs as [|v vs IH]; intros A B C; [constructor|]. cbn [flat_map] in A, B, C. apply Forall_app in A, B, C. destruct A as [A A'], B as [B B'], C as [C C'].
  constructor; [|apply IH; assumption]. unfold no_nan_vertex. unfold xyz, uv, nxyz in *.
  change (Forall (fun x => f32_is_nan x = false) ([v_x v; v_y v; v_z v] ++ [v_nx v; v_ny v; v_nz v] ++ [v_tu v; v_tv v])). rewrite !Forall_app. repeat split; assumption.
Qed.
Lemma indices_back ts : flat_map (fun f => [Z_to_w32 (f_0 f); Z_to_w32 (f_1 f); Z_to_w32 (f_2 f)]) (map face_of ts) = flat_map three ts.
Proof.
  induction ts as [|[[i j] k] ts IH]; [reflexivity|]. cbn [map flat_map face_of f_0 f_1 f_2 three]. rewrite IH.
  assert (R : forall x, Z_to_w32 (w32_to_Z x) = x) by (intros x; apply w32_to_Z_inj; apply w32_to_Z_small; apply w32_to_Z_range). rewrite !R. reflexivity.
Qed.
Lemma small_range n ts : n <= 4294967295 -> Forall (in_range n) ts -> Forall small ts.
Proof. clear. intros B. apply Forall_impl. intros t. unfold in_range, small. apply Forall_impl. intros; lia. Qed.
End RoundTrip.

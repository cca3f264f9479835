(** What is read back from an OBJ file that was written from a mesh. *)
From Coq Require Import Floats.SpecFloat ZifyBool.
From Verif Require Import Base Text Image Sound Quantize ColorText JsonFloat Cfb Mesh SpecMesh SpecColor Common BaseFacts BiffFacts CommonFacts ColorFacts FlipFacts MeshFacts ObjFacts.

Lemma neg_neg x : neg_f32 (neg_f32 x) = x.
Proof.
  unfold neg_f32. pose proof (w32_to_Z_range x) as R. apply w32_to_Z_inj.
  destruct (2147483648 <=? w32_to_Z x) eqn:E.
  - rewrite (w32_to_Z_small (w32_to_Z x - 2147483648)) by lia. replace (2147483648 <=? w32_to_Z x - 2147483648) with false by lia. rewrite w32_to_Z_small; lia.
  - rewrite (w32_to_Z_small (w32_to_Z x + 2147483648)) by lia. replace (2147483648 <=? w32_to_Z x + 2147483648) with true by lia. rewrite w32_to_Z_small; lia.
Qed.
Lemma neg_nan x : f32_is_nan (neg_f32 x) = f32_is_nan x.
Proof.
  unfold f32_is_nan, exponent_bits, mantissa_bits, neg_f32. pose proof (w32_to_Z_range x) as R.
  destruct (2147483648 <=? w32_to_Z x) eqn:E; rewrite w32_to_Z_small by lia.
  - replace ((w32_to_Z x - 2147483648) / 8388608 mod 256) with (w32_to_Z x / 8388608 mod 256) by lia.
    replace ((w32_to_Z x - 2147483648) mod 8388608) with (w32_to_Z x mod 8388608) by lia. reflexivity.
  - replace ((w32_to_Z x + 2147483648) / 8388608 mod 256) with (w32_to_Z x / 8388608 mod 256) by lia.
    replace ((w32_to_Z x + 2147483648) mod 8388608) with (w32_to_Z x mod 8388608) by lia. reflexivity.
Qed.
Lemma w32_eqb_true a b : w32_eqb a b = true -> a = b.
Proof. apply w32_eqb_eq. Qed.
(** The index written for a face, read back *)
Lemma index_back i : 0 <= i <= 4294967295 -> u32_of (usize_of (i + 1)) = (i + 1) mod 4294967296.
Proof. intros H. unfold u32_of, usize_of. rewrite (Z.mod_small (i + 1)) by lia. rewrite Z2N.id by lia. reflexivity. Qed.

Section RoundTrip.
Context {num : Type} (print32 : f32 -> num) (print64 : f64 -> num) (print64_digits : nat -> f64 -> num) (parse64 : num -> option f64) (estimate : f32 -> nat).
Hypothesis NT : number_texts print32 print64 parse64.
Notation parse_f32 := (parse_f32 num parse64).
Notation flipped_v := (flipped_v num print32 print64 print64_digits parse64 estimate).
Notation recovers := (recovers num parse64).
Notation write_obj := (write_obj num print32 print64 print64_digits parse64 estimate).
Notation normal_lines := (normal_lines num print32 print64 print64_digits parse64 estimate).
Notation read_lines := (read_lines num parse64).

Definition rr (x : f32) : f32 := match parse_f32 (print32 x) with Ok y => y | _ => x end.
Lemma parse_rr x : parse_f32 (print32 x) = Ok (rr x).
Proof.
  unfold rr, Mesh.parse_f32. destruct (f32_is_nan x) eqn:N.
  - destruct (nt_nan _ _ _ NT x N) as (v & ->). reflexivity.
  - destruct (nt_f32 _ _ _ NT x N) as (v & -> & _). reflexivity.
Qed.
Lemma rr_same x : f32_is_nan x = false -> rr x = x.
Proof.
  intros N. unfold rr, Mesh.parse_f32. destruct (nt_f32 _ _ _ NT x N) as (v & -> & _ & E). unfold as_f32. rewrite E. apply bits_value. exact N.
Qed.

(** ** The flipped texture coordinate *)
Lemma probe_recovers fl tv p s : probe num print64_digits parse64 fl tv p = Some s -> recovers tv s = true.
Proof. unfold probe. destruct (Mesh.recovers num parse64 tv (print64_digits p fl)) eqn:E; intros H; [injection H as <-; exact E|discriminate]. Qed.
Lemma walk_down_recovers fl tv : forall p s, recovers tv s = true -> recovers tv (walk_down num print64_digits parse64 fl tv p s) = true.
Proof.
  induction p as [|p IH]; intros s H; [exact H|]. cbn [walk_down]. destruct p as [|p']; [exact H|].
  destruct (probe _ _ _ fl tv (S p')) as [s'|] eqn:E; [|exact H]. apply IH. exact (probe_recovers _ _ _ _ E).
Qed.
Lemma find_probe_recovers fl tv : forall n p s, find_probe num print64_digits parse64 fl tv n p = Some s -> recovers tv s = true.
Proof.
  induction n as [|n IH]; intros p s H; [discriminate|]. cbn [find_probe] in H. destruct (probe _ _ _ fl tv p) as [s'|] eqn:E.
  - injection H as <-. exact (probe_recovers _ _ _ _ E).
  - exact (IH _ _ H).
Qed.
Lemma recovers_read tv s : recovers tv s = true -> exists v, parse64 s = Some v /\ as_f32 (one_minus v) = tv.
Proof. unfold Mesh.recovers. destruct (parse64 s) as [v|]; [|discriminate]. intros H. exists v. split; [reflexivity|apply w32_eqb_true; exact H]. Qed.
Lemma flipped_v_read tv : exists v, parse64 (fst (flipped_v tv)) = Some v /\ (snd (flipped_v tv) = true -> as_f32 (one_minus v) = tv).
Proof.
  unfold Mesh.flipped_v. destruct (f32_is_nan tv) eqn:N.
  { destruct (nt_nan _ _ _ NT (f32_bits S754_nan) eq_refl) as (v & E). exists v. cbn [fst snd]. split; [exact E|discriminate]. }
  cbv zeta. destruct (_ && _) eqn:S.
  - apply andb_prop in S. destruct S as [S1 S2]. cbn [fst snd].
    set (w := as_f32 (one_minus (f64_of_f32 (f32_value tv)))).
    destruct (f32_is_nan w) eqn:Nw.
    + (* not reached: the flipped value is a number *)
      destruct (nt_nan _ _ _ NT w Nw) as (v & E). exfalso. revert Nw. unfold w. rewrite (flip_not_nan tv N S1 S2). discriminate.
    + destruct (nt_f32 _ _ _ NT w Nw) as (v & E & V & F). exists v. split; [exact E|]. intros _.
      apply flip_recovers; try assumption. intros [->|X].
      * change w with (Z_to_w32 0x3f000000) in E || (assert (Hw : w = Z_to_w32 0x3f000000) by (unfold w; vm_compute; reflexivity); rewrite Hw in E).
        rewrite (nt_half _ _ _ NT) in E. injection E as <-. vm_compute. reflexivity.
      * subst tv. assert (Hw : w = Z_to_w32 0xbf800000) by (unfold w; vm_compute; reflexivity). rewrite Hw in E.
        rewrite (nt_minus_one _ _ _ NT) in E. injection E as <-. vm_compute. reflexivity.
  - set (short := print32 (as_f32 (one_minus (f64_of_f32 (f32_value tv))))).
    destruct (Mesh.recovers num parse64 tv short) eqn:R; cbn [fst snd].
    + destruct (recovers_read _ _ R) as (v & E & A). exists v. split; [exact E|intros _; exact A].
    + destruct (shortest_recovering_text _ _ _ _ _ tv) as [text|] eqn:T; cbn [fst snd].
      * assert (R' : recovers tv text = true).
        { unfold shortest_recovering_text in T. destruct (probe _ _ _ _ tv (estimate tv)) as [s|] eqn:P.
          - injection T as <-. apply walk_down_recovers. exact (probe_recovers _ _ _ _ P).
          - exact (find_probe_recovers _ _ _ _ _ T). }
        destruct (recovers_read _ _ R') as (v & E & A). exists v. split; [exact E|intros _; exact A].
      * destruct (nt_f64 _ _ _ NT (one_minus (f64_of_f32 (f32_value tv)))) as (v & E). exists v. split; [exact E|discriminate].
Qed.
Definition fv (tv : f32) : f64 := match parse64 (fst (flipped_v tv)) with Some v => v | None => S754_nan end.
Lemma parse_fv tv : parse64 (fst (flipped_v tv)) = Some (fv tv).
Proof. unfold fv. destruct (flipped_v_read tv) as (v & -> & _). reflexivity. Qed.
Lemma fv_back tv : snd (flipped_v tv) = true -> as_f32 (one_minus (fv tv)) = tv.
Proof. unfold fv. destruct (flipped_v_read tv) as (v & -> & H). exact H. Qed.

(** ** The lines of a written file *)
Definition position (w : wrapper) := let v := w_vertex w in (rr (v_x v), rr (v_y v), rr (neg_f32 (v_z v))).
Definition tex (w : wrapper) : f32 * option f64 := let v := w_vertex w in (rr (v_tu v), Some (fv (v_tv v))).
Definition nan_zero (x y : f32) : f32 := if f32_is_nan x then f32_zero else y.
Definition preserved (w : wrapper) : bool := needs_byte_preservation (w_vertex w) (snd (flipped_v (v_tv (w_vertex w)))).
Definition normal (w : wrapper) : obj_normal :=
  let v := w_vertex w in
  mkNormal (rr (nan_zero (v_nx v) (v_nx v))) (rr (nan_zero (v_ny v) (v_ny v))) (rr (nan_zero (v_nz v) (neg_f32 (v_nz v))))
    (if preserved w then Some (VertexBytes (w_bytes w)) else None).
Definition index_corner (i : Z) : corner := let k := u32_of (usize_of (i + 1)) in mkCorner k k k.
Definition corners (f : face) : list corner := [index_corner (f_2 f); index_corner (f_1 f); index_corner (f_0 f)].

Lemma read_positions vs : forall fs b p t n o name,
  read_lines (map (fun w => let v := w_vertex w in LVertex (print32 (v_x v)) (print32 (v_y v)) (print32 (neg_f32 (v_z v))) None) vs) (mkReader fs b p t n o None name) =
  Ok (mkReader fs b (p ++ map position vs) t n o None name).
Proof.
  induction vs as [|w vs IH]; intros; [cbn; rewrite app_nil_r; reflexivity|]. cbn [map Mesh.read_lines read_line]. rewrite !parse_rr. cbn [rbind parse_opt].
  cbn [r_faces r_needs_normalize r_vertices r_tex r_normals r_objects r_name]. rewrite IH, <- app_assoc. reflexivity.
Qed.
Lemma read_tex vs : forall fs b p t n o name,
  read_lines (map (fun w => let v := w_vertex w in LTex (print32 (v_tu v)) (Some (fst (flipped_v (v_tv v)))) None) vs) (mkReader fs b p t n o None name) =
  Ok (mkReader fs b p (t ++ map tex vs) n o None name).
Proof.
  induction vs as [|w vs IH]; intros; [cbn; rewrite app_nil_r; reflexivity|]. cbn [map Mesh.read_lines read_line]. rewrite !parse_rr. cbn [rbind parse_opt].
  rewrite parse_fv. cbn [rbind r_faces r_needs_normalize r_vertices r_tex r_normals r_objects r_name]. rewrite IH, <- app_assoc. reflexivity.
Qed.
Lemma read_normals vs : forall fs b p t n o name, Forall (fun w => List.length (w_bytes w) = 32%nat) vs ->
  read_lines (flat_map normal_lines vs) (mkReader fs b p t n o None name) = Ok (mkReader fs b p t (n ++ map normal vs) o None name).
Proof.
  induction vs as [|w vs IH]; intros fs b p t n o name H; [cbn; rewrite app_nil_r; reflexivity|]. inversion H as [|? ? H1 H2]; subst.
  cbn [map flat_map]. rewrite read_lines_app.
  assert (E : read_lines (normal_lines w) (mkReader fs b p t n o None name) = Ok (mkReader fs b p t (n ++ [normal w]) o None name)).
  { unfold Mesh.normal_lines. cbv zeta. fold (nan_zero (v_nx (w_vertex w)) (v_nx (w_vertex w))). fold (nan_zero (v_ny (w_vertex w)) (v_ny (w_vertex w))).
    fold (nan_zero (v_nz (w_vertex w)) (neg_f32 (v_nz (w_vertex w)))). fold (preserved w). unfold normal. destruct (preserved w) eqn:P;
      cbn [app Mesh.read_lines read_line rbind]; cbn [r_comment r_faces r_needs_normalize r_vertices r_tex r_normals r_objects r_name];
      rewrite !parse_rr; cbn [rbind].
    - rewrite parse_comment, H1. cbn [Nat.eqb rbind]. reflexivity.
    - reflexivity. }
  rewrite E. cbn [rbind]. rewrite (IH _ _ _ _ _ _ _ H2), <- app_assoc. reflexivity.
Qed.
Lemma index_matched i : matched (index_corner i) = true.
Proof. unfold matched, index_corner. cbn. rewrite !Z.eqb_refl. reflexivity. Qed.
Lemma read_face_lines l : forall fs p t n o name,
  read_lines (map (face_line num) l) (mkReader fs false p t n o None name) = Ok (mkReader (fs ++ map corners l) false p t n o None name).
Proof.
  induction l as [|f l IH]; intros; [cbn; rewrite app_nil_r; reflexivity|]. cbn [map Mesh.read_lines]. unfold face_line at 1. cbn [read_line map List.length].
  cbv zeta. cbn [r_comment r_faces r_needs_normalize r_vertices r_tex r_normals r_objects r_name].
  change (corner_of (usize_of (f_2 f + 1), Some (usize_of (f_2 f + 1)), Some (usize_of (f_2 f + 1)))) with (index_corner (f_2 f)).
  change (corner_of (usize_of (f_1 f + 1), Some (usize_of (f_1 f + 1)), Some (usize_of (f_1 f + 1)))) with (index_corner (f_1 f)).
  change (corner_of (usize_of (f_0 f + 1), Some (usize_of (f_0 f + 1)), Some (usize_of (f_0 f + 1)))) with (index_corner (f_0 f)).
  cbn [forallb]. rewrite !index_matched. cbn [andb orb negb Nat.eqb rbind]. rewrite IH, <- app_assoc. reflexivity.
Qed.
Lemma read_written name vs fs : Forall (fun w => List.length (w_bytes w) = 32%nat) vs ->
  read_lines (write_obj name vs fs) reader_new = Ok (mkReader (map corners fs) false (map position vs) (map tex vs) (map normal vs) 1 None name).
Proof.
  intros H. unfold Mesh.write_obj. rewrite read_lines_app.
  match goal with |- (r' <~ ?e ;; _) = _ => assert (E : e = Ok (mkReader [] false [] [] [] 1 None name)) by reflexivity end.
  rewrite E. cbn [rbind]. clear E. rewrite read_lines_app, read_positions. cbn [rbind app].
  rewrite read_lines_app, read_tex. cbn [rbind app]. rewrite read_lines_app, (read_normals _ _ _ _ _ _ _ _ H). cbn [rbind app].
  rewrite read_face_lines. reflexivity.
Qed.
Definition face_back (f : face) : face :=
  let g i := u32_of (usize_of (i + 1)) - 1 in mkFace (g (f_0 f)) (g (f_1 f)) (g (f_2 f)).
Lemma surface_corners fs : map (fun t => let '(a, b, c) := t in mkFace (c_v a - 1) (c_v b - 1) (c_v c - 1)) (surface true (map corners fs)) = map face_back fs.
Proof. induction fs as [|f fs IH]; [reflexivity|]. cbn [map surface flat_map]. rewrite map_app. unfold surface in IH. rewrite IH. reflexivity. Qed.
Lemma read_obj_written name vs fs : Forall (fun w => List.length (w_bytes w) = 32%nat) vs ->
  read_obj num parse64 (write_obj name vs fs) true = Ok (mkObjData name (map position vs) (map tex vs) (map normal vs) (map face_back fs)).
Proof.
  intros H. destruct (read_obj_strict parse64 (write_obj name vs fs) true _ (read_written name vs fs H) eq_refl eq_refl) as (d & E & A & B & C & D & F).
  cbn [r_name r_vertices r_tex r_normals r_faces] in *. rewrite surface_corners in F. rewrite E. destruct d. cbn in *. subst. reflexivity.
Qed.
Lemma face_back_same f : face_within 0 4294967294 f -> face_back f = f.
Proof.
  intros (H0 & H1 & H2). unfold face_back. rewrite !index_back by lia. rewrite !Z.mod_small by lia. destruct f as [a b c]. cbn. f_equal; lia.
Qed.

(** ** Vertices *)
Lemma stored_len w : stored_vertex w -> List.length (w_bytes w) = 32%nat.
Proof. intros H. rewrite H. apply vertex_bytes_len. Qed.
Lemma written_vertex w : stored_vertex w ->
  write_vertex (final_vertex true (position w) (tex w) (normal w)) (n_bytes (normal w)) = w_bytes w.
Proof.
  intros H. unfold normal at 2. cbn [n_bytes]. destruct (preserved w) eqn:P; [reflexivity|].
  unfold preserved, needs_byte_preservation in P. cbn [existsb] in P. repeat (apply orb_false_iff in P; destruct P as [P ?]).
  repeat match goal with K : orb _ _ = false |- _ => apply orb_false_iff in K; destruct K end.
  match goal with K : negb _ = false |- _ => rewrite negb_false_iff in K; rename K into X end.
  unfold position, tex, normal. cbv zeta. unfold final_vertex, write_vertex, put_nan_as_zero, nan_zero.
  cbn [fst snd n_x n_y n_z v_x v_y v_z v_nx v_ny v_nz v_tu v_tv].
  set (v := w_vertex w) in *.
  repeat match goal with K : f32_is_nan _ = false |- _ => rewrite ?K; rewrite ?(rr_same _ K); revert K end. intros.
  rewrite !rr_same by (rewrite neg_nan; assumption). rewrite !neg_neg.
  repeat match goal with K : f32_is_nan _ = false |- _ => rewrite ?K; revert K end. intros.
  rewrite (fv_back _ X). rewrite H. fold v. unfold vertex_bytes. rewrite !app_assoc. reflexivity.
Qed.
Lemma combine_maps {A B C D} (f : A -> B) (g : A -> C) (h : A -> D) l : combine (combine (map f l) (map g l)) (map h l) = map (fun a => (f a, g a, h a)) l.
Proof. induction l as [|a l IH]; [reflexivity|]. cbn. rewrite IH. reflexivity. Qed.
Lemma written_vertices vs : Forall stored_vertex vs -> forall name fs,
  flat_map (fun e => write_vertex (fst e) (snd e)) (final_vertices true (mkObjData name (map position vs) (map tex vs) (map normal vs) fs)) = flat_map w_bytes vs.
Proof.
  intros H name fs. unfold final_vertices. cbn [o_vertices o_tex o_normals]. rewrite combine_maps, map_map.
  induction vs as [|w vs IH]; [reflexivity|]. inversion H as [|? ? H1 H2]; subst. cbn [map flat_map]. rewrite (IH H2). cbn [fst snd]. rewrite (written_vertex w H1). reflexivity.
Qed.
Lemma read_from_reader_written name vs fs : Forall stored_vertex vs ->
  exists x, read_obj_from_reader num parse64 true (write_obj name vs fs) = Ok x /\
    x_name x = name /\ x_vertices x = zlen vs /\ x_faces x = map face_back fs /\ x_encoded x = flat_map w_bytes vs.
Proof.
  intros H. unfold read_obj_from_reader. rewrite read_obj_written by (eapply Forall_impl; [|exact H]; apply stored_len). cbn [rbind].
  eexists. split; [reflexivity|]. cbn [x_name x_vertices x_faces x_encoded o_name o_vertices o_faces]. split; [reflexivity|].
  split; [unfold zlen; rewrite map_length; reflexivity|]. split; [reflexivity|]. apply written_vertices. exact H.
Qed.

(** ** Frames *)
Lemma frame_back vs : forall fvs, no_nan fvs -> (List.length fvs <= List.length vs)%nat ->
  map (fun e : f32 * f32 * f32 * obj_normal => let '(x, y, z) := fst e in let n := snd e in mkFv x y (neg_f32 z) (n_x n) (n_y n) (neg_f32 (n_z n)))
    (combine (map position (replace_vertices vs fvs)) (map normal (replace_vertices vs fvs))) = fvs.
Proof.
  unfold replace_vertices. induction vs as [|w vs IH]; intros [|a fvs] H L; try reflexivity; [cbn in L; lia|].
  inversion H as [|? ? H1 H2]; subst. cbn [combine map]. rewrite (IH fvs H2) by (cbn in L; lia). f_equal.
  unfold frame_numbers in H1. repeat match goal with K : Forall _ (_ :: _) |- _ => apply Forall_cons_iff in K; destruct K end.
  unfold position, normal. cbv zeta. cbn [fst snd w_vertex n_x n_y n_z v_x v_y v_z v_nx v_ny v_nz v_tu v_tv]. unfold nan_zero.
  repeat match goal with K : f32_is_nan _ = false |- _ => rewrite ?K; rewrite ?(rr_same _ K); revert K end. intros.
  rewrite !rr_same by (rewrite neg_nan; assumption). rewrite !neg_neg. destruct a; reflexivity.
Qed.
Lemma replaced_len vs fvs : Forall (fun w => List.length (w_bytes w) = 32%nat) (replace_vertices vs fvs).
Proof. unfold replace_vertices. apply Forall_forall. intros w H. apply in_map_iff in H. destruct H as (e & <- & _). reflexivity. Qed.
Lemma read_frame_written name vs fs fvs : no_nan fvs -> (List.length fvs <= List.length vs)%nat ->
  read_obj_as_frame num parse64 (write_obj name (replace_vertices vs fvs) fs) = Ok fvs.
Proof.
  intros H L. unfold read_obj_as_frame. rewrite (read_obj_written _ _ _ (replaced_len vs fvs)). cbn [rbind o_vertices o_normals]. f_equal.
  apply frame_back; assumption.
Qed.
End RoundTrip.

Lemma read_frame_vertices_ok fvs : forall d, read_frame_vertices (List.length fvs) (flat_map write_frame_vertex fvs ++ d) = Ok fvs.
Proof.
  induction fvs as [|a fvs IH]; intros d; [reflexivity|]. cbn [flat_map List.length read_frame_vertices]. rewrite <- app_assoc.
  assert (E : forall d, read_frame_vertex (write_frame_vertex a ++ d) = Ok (a, d)).
  { intros d'. unfold read_frame_vertex, write_frame_vertex. rewrite <- !app_assoc. do 6 (rewrite take_w32_bytes; cbn [rbind]). destruct a; reflexivity. }
  rewrite E. cbn [rbind]. rewrite IH. reflexivity.
Qed.
Lemma frame_len fvs : zlen (flat_map write_frame_vertex fvs) = 24 * zlen fvs.
Proof. induction fvs as [|a fvs IH]; [reflexivity|]. cbn [flat_map]. rewrite zlen_app, IH, zlen_cons. change (zlen (write_frame_vertex a)) with 24. lia. Qed.
Lemma write_index_back (wide : bool) i : 0 <= i <= (if wide then 4294967295 else 65535) -> write_index wide (u32_of (usize_of (i + 1)) - 1) = write_index wide i.
Proof.
  intros H. rewrite index_back by (destruct wide; lia). unfold write_index. destruct wide; f_equal.
  - apply w32_to_Z_inj. rewrite !w32_to_Z_of. lia.
  - rewrite Z.mod_small by lia. f_equal. lia.
Qed.

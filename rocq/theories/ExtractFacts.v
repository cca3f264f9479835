(** Proofs about whole tables as directories. *)
From Coq Require Import Permutation Lia.
From Verif Require Import Base Text Biff Quantize Common Enums ItemPrimitive StructMaterial Structs GameItem GameData Image Sound Cfb
  TableInfo Vpx FileSystem ExpandedItems SpecExpanded ExpandedAssets SpecAssets JsonFloat Json JsonItems SpecJson SpecJsonRecords JsonGameItem SpecJsonGameItem
  JsonStructs SpecJsonStructs JsonGameData SpecJsonGameData Mesh SpecMesh Gltf SpecGltf Extract SpecExtract.
From Verif Require Import BaseFacts TextFacts OpsFacts SoundFacts CfbFacts FileSystemFacts ExpandedItemsFacts PropertiesExpanded AssetFacts PropertiesAssets MeshFacts ObjRoundTrip PropertiesMesh GltfFacts PropertiesGltf LegacyFacts
  JsonFacts JsonGameItemFacts JsonStructsFacts JsonGameDataFacts PropertiesJsonItems.

Lemma try_map_forall2 {A C} (f : A -> res C) l l' : try_map f l = Ok l' <-> Forall2 (fun x y => f x = Ok y) l l'.
Proof.
  split.
  - revert l'. induction l as [|x l IH]; intros l' H; cbn [try_map] in H; [injection H as <-; constructor|].
    destruct (f x) as [y|] eqn:E; [|discriminate]. cbn [rbind] in H. destruct (try_map f l) as [ys|]; [|discriminate].
    cbn [rbind] in H. injection H as <-. constructor; auto.
  - intros H. induction H as [|x y l l' E H IH]; [reflexivity|]. cbn [try_map]. rewrite E, IH. reflexivity.
Qed.

Lemma forall2_length {X Y} (R : X -> Y -> Prop) l l' : Forall2 R l l' -> List.length l = List.length l'.
Proof. induction 1; cbn; congruence. Qed.

Section Facts.
Variable B : toolbox.
Hypothesis ok : toolbox_ok B.
Local Existing Instance tb_json.

Lemma lib : lib_ok (tb_json B). Proof. apply ok. Qed.
Lemma parse_print (j : @json (tb_json B)) : tb_parse B (tb_print B j) = Ok j. Proof. apply ok. Qed.
Lemma parse_compact (j : @json (tb_json B)) k : tb_parse B (tb_compact B j ++ repeat x20 k) = Ok j. Proof. apply ok. Qed.
Lemma parse_compact0 (j : @json (tb_json B)) : tb_parse B (tb_compact B j) = Ok j.
Proof. pose proof (parse_compact j 0) as H. cbn [repeat] in H. rewrite app_nil_r in H. exact H. Qed.
Lemma zlib d : tb_decompress B (tb_compress B d) = Ok d. Proof. apply ok. Qed.
Lemma texts : number_texts (tb_print32 B) (tb_print64 B) (tb_parse64 B). Proof. apply ok. Qed.

(** ** Items *)
Definition is_primitive (i : GameItem) : bool := match i with GI_Primitive _ => true | _ => false end.
Lemma read_back i n : GI_finite i -> exists x, GameItem_of_json (GameItem_to_json i) = Ok x /\ restore_item (GameItem_info n i) x = GI_without_mesh i /\
  is_primitive x = is_primitive i.
Proof.
  intros F. pose proof (item_restored lib n i F) as H. unfold read_item_json in H. rewrite (restores_GameItemInfo (GameItem_info n i)) in H. cbn [rbind] in H.
  destruct (GameItem_of_json (GameItem_to_json i)) as [x|]; [|discriminate]. cbn [rbind] in H. injection H as H. exists x. split; [reflexivity|]. split; [exact H|].
  apply (f_equal is_primitive) in H. destruct x, i; cbn in H; try reflexivity; discriminate H.
Qed.
Lemma xitem_primitive m i x : GI_finite i -> xitem_of B m i = Ok x -> json_is_primitive B (xi_json x) = is_primitive i.
Proof.
  intros F H. unfold xitem_of in H. destruct (mesh_files B m i) as [mesh|]; [|discriminate]. cbn [rbind] in H. injection H as <-.
  unfold json_is_primitive. cbn [xi_json]. rewrite parse_print. cbn [rbind]. destruct (read_back i [] F) as (y & E & _ & P). rewrite E.
  rewrite <- P. destruct y; reflexivity.
Qed.

(** ** Meshes and frames in files *)
Lemma mesh_small p vs fs : read_mesh (tb_decompress B) p = Ok (Some (vs, fs)) -> zlen vs < 4294967296 /\ zlen fs < 4294967296.
Proof.
  intros H. unfold read_mesh in H. destruct (mf_vertices p) as [vd|]; [|discriminate]. destruct (mf_indices p) as [id|]; [|discriminate].
  destruct (tb_decompress B vd) as [raw|]; [|discriminate]. cbn [rbind] in H. destruct (tb_decompress B id) as [inds|]; [|discriminate]. cbn [rbind] in H.
  set (n := zlen raw / BYTES_PER_VERTEX) in *. destruct (n =? _) eqn:E1; cbn [negb] in H; [|discriminate].
  set (k := zlen inds / index_width (wide_indices n)) in *. destruct (k =? _) eqn:E2; cbn [negb] in H; [|discriminate].
  destruct (read_vertices _ raw) as [vs0|] eqn:RV; [|discriminate]. cbn [rbind] in H. destruct (read_faces _ _ inds) as [fs'|] eqn:RF; [|discriminate].
  cbn [rbind] in H. injection H as -> ->.
  assert (Hn : 0 <= n < 4294967296). { destruct (mf_num_vertices p) as [w|]; [pose proof (w32_to_Z_range w); lia|lia]. }
  assert (Hk : 0 <= k < 4294967296). { destruct (mf_num_indices p) as [w|]; [pose proof (w32_to_Z_range w); lia|lia]. }
  apply read_vertices_stored in RV. destruct RV as [S LV]. apply read_faces_range in RF. destruct RF as [F LF].
  assert (k / 3 <= k) by (apply Z.div_le_upper_bound; lia). assert (0 <= k / 3) by (apply Z.div_pos; lia). unfold zlen. lia.
Qed.
Lemma gltf_bin_small vs fs : zlen vs < 4294967296 -> zlen fs < 4294967296 -> zlen (gltf_bin vs fs) < 18446744073709551616.
Proof.
  intros V F. unfold gltf_bin. cbv zeta. rewrite zlen_app, !zlen_app, positions_len, normals_len, texcoords_len, indices_len.
  match goal with |- context [repeat x00 ?k] => assert (zlen (repeat x00 k) < 4) by (unfold zlen; rewrite repeat_length; unfold padding; pose proof (Z.mod_pos_bound) as M; rewrite Z2Nat.id; apply M; lia) end.
  pose proof (zlen_nonneg fs). destruct (65535 <? zlen vs); lia.
Qed.
Lemma replaced_shorter vs fvs : zlen (replace_vertices vs fvs) <= zlen vs.
Proof. unfold replace_vertices, zlen. rewrite map_length, combine_length. lia. Qed.

Lemma mesh_read m name p vs fs frames fetch stem : read_mesh (tb_decompress B) p = Ok (Some (vs, fs)) -> format_fits B m name vs fs frames ->
  (m = FmtGltf -> fetch (bin_file_name stem) = Some (snd (mesh_file B m name vs fs stem))) -> starts_with (lit "data:") (bin_file_name stem) = false ->
  exists f, mesh_from B fetch m (fst (mesh_file B m name vs fs stem)) = Ok f /\ read_mesh (tb_decompress B) f = Ok (Some (vs, fs)).
Proof.
  intros RM K FE U. destruct (mesh_shape _ _ _ _ RM) as [S F].
  assert (G : forall vs', Forall2 (fun w w' => w_bytes w' = w_bytes w /\ w_vertex w' = shown_vertex (w_vertex w)) vs vs' ->
    read_mesh (tb_decompress B) (gltf_mesh (tb_compress B) (name, vs', fs)) = Ok (Some (vs, fs))).
  { intros vs' H. apply (mesh_back (tb_compress B) (tb_decompress B) name p vs fs vs' zlib RM). clear -H.
    induction H as [|w w' vs vs' (G1 & _) G IH]; cbn [map]; [reflexivity|]. rewrite IH, G1. reflexivity. }
  destruct m; cbn [mesh_file mesh_from fst format_fits] in *.
  - destruct K as [K _]. rewrite (K vs fs). cbn [rbind].
    exact (C49_mesh (tb_num B) (tb_print32 B) (tb_print64 B) (tb_digits B) (tb_parse64 B) (tb_estimate B) (tb_decompress B) (tb_compress B) texts zlib p vs fs name RM).
  - destruct K as [_ K]. inversion K as [|? ? K1 _]; subst.
    destruct (C55_glb _ (tb_compact B) (tb_parse B) name vs fs S F K1 (fun k => parse_compact _ k)) as (vs' & E & R). rewrite E. cbn [rbind]. eexists. split; [reflexivity|exact (G vs' R)].
  - destruct (mesh_small _ _ _ RM) as [Z1 Z2].
    destruct (C55_gltf _ (tb_compact B) (tb_parse B) name vs fs (bin_file_name stem) fetch S F (gltf_bin_small _ _ Z1 Z2) (parse_compact0 _) U (FE eq_refl)) as (vs' & E & R).
    rewrite E. cbn [rbind]. eexists. split; [reflexivity|exact (G vs' R)].
Qed.
Lemma frame_read m name p vs fs frames fetch stem fvs : read_mesh (tb_decompress B) p = Ok (Some (vs, fs)) -> format_fits B m name vs fs frames -> In fvs frames ->
  (List.length fvs <= List.length vs)%nat ->
  (m = FmtGltf -> fetch (bin_file_name stem) = Some (snd (mesh_file B m name (replace_vertices vs fvs) fs stem))) -> starts_with (lit "data:") (bin_file_name stem) = false ->
  frame_from B fetch m (fst (mesh_file B m name (replace_vertices vs fvs) fs stem)) = Ok fvs.
Proof.
  intros RM K I LE FE U. destruct m; cbn [mesh_file frame_from fst format_fits] in *.
  - destruct K as [K N]. rewrite (K (replace_vertices vs fvs) fs). cbn [rbind].
    exact (read_frame_written (tb_print32 B) (tb_print64 B) (tb_digits B) (tb_parse64 B) (tb_estimate B) texts name vs fs fvs (proj1 (Forall_forall _ _) N fvs I) LE).
  - destruct K as [N K]. inversion K as [|? ? _ K2]; subst. rewrite Forall_map in K2.
    destruct (C55_frame _ (tb_compact B) (tb_parse B) name vs fs fvs (bin_file_name stem) fetch (proj1 (Forall_forall _ _) N fvs I) LE (fun uri k => parse_compact _ k)) as [G _].
    destruct (G (proj1 (Forall_forall _ _) K2 fvs I)) as (x & E & R). rewrite E. cbn [rbind]. rewrite R. reflexivity.
  - destruct (mesh_small _ _ _ RM) as [Z1 Z2]. pose proof (replaced_shorter vs fvs) as Z3.
    destruct (C55_frame _ (tb_compact B) (tb_parse B) name vs fs fvs (bin_file_name stem) fetch (proj1 (Forall_forall _ _) K fvs I) LE (fun uri k => parse_compact _ k)) as [_ G].
    cbv zeta in G. destruct G as (x & E & R); [|exact U|exact (FE eq_refl)|].
    + cbn [write_gltf snd]. apply gltf_bin_small; lia.
    + rewrite E. cbn [rbind]. rewrite R. reflexivity.
Qed.
Lemma frames_written m name vs fs frames decoded : Forall2 (fun f d => read_animation_frame (tb_decompress B) (fst f) (snd f) = Ok d) frames decoded ->
  frame_meshes B m name vs fs frames = Ok (map (fun d => mesh_file B m name (replace_vertices vs d) fs) decoded).
Proof. induction 1 as [|[d n] fvs l l' E H IH]; [reflexivity|]. cbn [fst snd] in E. cbn [frame_meshes map]. rewrite E. cbn [rbind]. rewrite IH. reflexivity. Qed.
Lemma frames_read m name p vs fs all fetch base : read_mesh (tb_decompress B) p = Ok (Some (vs, fs)) -> format_fits B m name vs fs all ->
  (forall s, starts_with (lit "data:") (bin_file_name (base ++ s)) = false) ->
  forall decoded k, incl decoded all -> Forall (fun d => (List.length d <= List.length vs)%nat /\ zlen (tb_compress B (flat_map write_frame_vertex d)) < 2 ^ 32) decoded ->
  (m = FmtGltf -> forall j f, nth_error (map (fun d => mesh_file B m name (replace_vertices vs d) fs) decoded) j = Some f ->
     fetch (bin_file_name (frame_stem base (k + j))) = Some (snd (f (frame_stem base (k + j))))) ->
  exists frames', frames_from B fetch m (map (fun e => fst (snd e (frame_stem base (fst e))))
      (combine (seq k (List.length decoded)) (map (fun d => mesh_file B m name (replace_vertices vs d) fs) decoded))) = Ok frames' /\
    Forall2 (fun f d => read_animation_frame (tb_decompress B) (fst f) (snd f) = Ok d) frames' decoded.
Proof.
  intros RM K U. induction decoded as [|d decoded IH]; intros k I F FE; [exists []; split; [reflexivity|constructor]|].
  inversion F as [|? ? (L & C) F']; subst. destruct (IH (S k)) as (frames' & E & R).
  - intros x Hx. apply I. right. exact Hx.
  - exact F'.
  - intros M j f Hj. replace (S k + j)%nat with (k + S j)%nat by lia. apply (FE M (S j) f). exact Hj.
  - cbn [List.length seq map combine fst snd frames_from].
    rewrite (frame_read m name p vs fs all fetch (frame_stem base k) d RM K (I d (or_introl eq_refl)) L).
    + cbn [rbind]. rewrite E. cbn [rbind]. eexists. split; [reflexivity|]. constructor; [|exact R]. cbn [fst snd]. apply C37_stored; [exact zlib|exact C].
    + intros M. pose proof (FE M 0%nat _ eq_refl) as G. rewrite Nat.add_0_r in G. exact G.
    + apply U.
Qed.
Lemma combine_fst_snd {A C} (l : list (A * C)) : combine (map fst l) (map snd l) = l.
Proof. induction l as [|[a c] l IH]; [reflexivity|]. cbn [map combine fst snd]. rewrite IH. reflexivity. Qed.
Definition bare (p : Primitive) : Primitive :=
  set_Primitive_compressed_animation_vertices_data None (set_Primitive_compressed_animation_vertices_len None
    (set_Primitive_compressed_indices_data None (set_Primitive_compressed_indices_len None (set_Primitive_num_indices None
      (set_Primitive_compressed_vertices_data None (set_Primitive_compressed_vertices_len None (set_Primitive_num_vertices None p))))))).

(** The fields of a primitive after setting its mesh and its frames *)
Lemma mesh_of_set_frames f p : mesh_of (set_frames f p) = mesh_of p.
Proof. destruct p. unfold set_frames. vm_compute. reflexivity. Qed.
Lemma mesh_of_set_mesh m p : mesh_of (set_mesh m p) = m.
Proof. destruct p, m. vm_compute. reflexivity. Qed.
Lemma frames_of_set_mesh m p : Primitive_compressed_animation_vertices_data (set_mesh m p) = Primitive_compressed_animation_vertices_data p /\
  Primitive_compressed_animation_vertices_len (set_mesh m p) = Primitive_compressed_animation_vertices_len p.
Proof. destruct p, m. split; vm_compute; reflexivity. Qed.
Lemma frames_of_set_frames f p : Primitive_compressed_animation_vertices_data (set_frames f p) = Some (map fst f) /\
  Primitive_compressed_animation_vertices_len (set_frames f p) = Some (map snd f).
Proof. destruct p. split; reflexivity. Qed.
Lemma frames_of_bare p : Primitive_compressed_animation_vertices_data (bare p) = None /\ mesh_of (bare p) = mkMeshFields None None None None.
Proof. destruct p. split; vm_compute; reflexivity. Qed.
Lemma bare_bare p : bare (bare p) = bare p.
Proof. destruct p. vm_compute. reflexivity. Qed.
Lemma bare_set_mesh m p : bare (set_mesh m p) = bare p.
Proof. destruct p, m. vm_compute. reflexivity. Qed.
Lemma bare_set_frames f p : bare (set_frames f p) = bare p.
Proof. destruct p. vm_compute. reflexivity. Qed.
Lemma stored_set_mesh m p : lengths_stored (set_mesh m p).
Proof. destruct p, m. split; reflexivity. Qed.
Lemma stored_set_frames f p : lengths_stored p -> lengths_stored (set_frames f p).
Proof. destruct p. intros H. exact H. Qed.
Lemma stored_bare p : lengths_stored (bare p).
Proof. destruct p. split; reflexivity. Qed.
Lemma without_mesh_bare p : GI_without_mesh (GI_Primitive p) = GI_Primitive (bare p).
Proof. reflexivity. Qed.

Lemma primitive_stem n i s : (exists rest, n = GI_type_name i ++ lit "." ++ rest) -> is_primitive i = true -> starts_with (lit "data:") (bin_file_name (n ++ s)) = false.
Proof. intros (rest & ->) P. destruct i; try discriminate P. reflexivity. Qed.
Lemma item_back m i x n f dir : extractable_item B m i -> xitem_of B m i = Ok x -> (exists rest, n = GI_type_name i ++ lit "." ++ rest) ->
  (m = FmtGltf -> own_bins n x dir) ->
  exists i', assemble_item B dir (GameItem_info f i, own_data m n x) = Ok i' /\ same_item B i i'.
Proof.
  intros [F H] X T OB. destruct (read_back i f F) as (y & E & R & _).
  assert (J : forall mm ff, assemble_item B dir (GameItem_info f i, (xi_json x, mm, ff)) = attach_mesh B (fun uri => hget uri dir) mm ff (GI_without_mesh i)).
  { intros mm ff. unfold xitem_of in X. destruct (mesh_files B m i) as [me|]; [|discriminate]. cbn [rbind] in X. injection X as <-.
    unfold assemble_item. cbn [xi_json]. rewrite parse_print. cbn [rbind]. rewrite E. cbn [rbind]. rewrite R. reflexivity. }
  unfold own_data. rewrite J. clear J. unfold xitem_of in X.
  assert (N : is_primitive i = false -> exists i', attach_mesh B (fun uri => hget uri dir) (option_map (fun z => (m, fst (fst z n))) (xi_mesh x))
     (match xi_mesh x with Some (_, d :: fr) => Some (m, own_frames n (d :: fr)) | _ => None end) (GI_without_mesh i) = Ok i' /\ same_item B i i').
  { intros P. exists i. destruct i; try discriminate P; (split; [reflexivity|split; [reflexivity|exact I]]). }
  destruct (is_primitive i) eqn:PR; [|exact (N eq_refl)]. clear N. pose proof (fun s => primitive_stem n i s T PR) as U.
  destruct i as [v|v|v|v|v|v|v|v|v|v|v|v|v|v|v|p|v|v|v|v|v|t g]; try discriminate PR.
  destruct H as (_ & mesh & frames & RM & FD & K). unfold mesh_files in X. rewrite RM in X. cbn [rbind] in X.
  rewrite without_mesh_bare. unfold same_item. rewrite without_mesh_bare.
  destruct mesh as [[vs fs]|].
  - destruct K as [K KF]. set (name := GI_name (GI_Primitive p)) in *. unfold frames_decode in FD.
    set (files := map (fun d => mesh_file B m name (replace_vertices vs d) fs) frames).
    set (w := match Primitive_compressed_animation_vertices_data p with None => Ok [] | Some ds => match Primitive_compressed_animation_vertices_len p with Some ns => _ | None => _ end end) in X.
    assert (W : w = Ok files).
    { unfold w. destruct (Primitive_compressed_animation_vertices_data p) as [ds|].
      - destruct (Primitive_compressed_animation_vertices_len p) as [ns|]; [|destruct FD]. destruct FD as [_ FD]. exact (frames_written m name vs fs _ _ FD).
      - subst frames. reflexivity. }
    rewrite W in X. cbn [rbind] in X. injection X as <-. cbn [xi_mesh option_map fst].
    unfold own_bins in OB. cbn [xi_mesh] in OB.
    destruct (mesh_read m name _ vs fs frames (fun uri => hget uri dir) n RM K) as (m' & RO & RM').
    { intros M. destruct (OB M) as [OB1 _]. exact OB1. } { pose proof (U []) as U0. rewrite app_nil_r in U0. exact U0. }
    destruct (frames_read m name _ vs fs frames (fun uri => hget uri dir) n RM K U frames 0 (incl_refl _) KF) as (frames' & W2 & W3).
    { intros M j g Hj. destruct (OB M) as [_ OB2]. exact (OB2 j g Hj). }
    unfold attach_mesh. rewrite RO. cbn [rbind].
    assert (OF : own_frames n files = map (fun e => fst (snd e (frame_stem n (fst e)))) (combine (seq 0 (List.length frames)) files)).
    { unfold own_frames, files. rewrite map_length. reflexivity. }
    destruct files as [|f0 files'] eqn:EF.
    + assert (frames = []) as -> by (apply (map_eq_nil _ _ EF)). inversion W3; subst frames'. cbn [rbind]. eexists. split; [reflexivity|].
      split; [rewrite without_mesh_bare, bare_set_mesh, bare_bare; reflexivity|]. rewrite mesh_of_set_mesh, RM, RM'. split; [reflexivity|]. split; [|apply stored_set_mesh].
      intros fr FR. unfold frames_decode in FR |- *. rewrite (proj1 (frames_of_set_mesh m' (bare p))), (proj1 (frames_of_bare p)).
      destruct (Primitive_compressed_animation_vertices_data p) as [ds|]; [|exact FR]. destruct (Primitive_compressed_animation_vertices_len p) as [ns|]; [|destruct FR].
      destruct FD as [L FD]. destruct FR as [_ FR]. inversion FD as [Z1|]; subst. rewrite <- Z1 in FR. inversion FR. reflexivity.
    + unfold files in EF. rewrite EF in W2. rewrite OF, W2. cbn [rbind].
      eexists. split; [reflexivity|]. split; [rewrite without_mesh_bare, bare_set_frames, bare_set_mesh, bare_bare; reflexivity|].
      rewrite mesh_of_set_frames, mesh_of_set_mesh, RM, RM'. split; [reflexivity|]. split; [|apply stored_set_frames, stored_set_mesh].
      intros fr FR.
      assert (fr = frames) as ->.
      { unfold frames_decode in FR. destruct (Primitive_compressed_animation_vertices_data p) as [ds|]; [|congruence].
        destruct (Primitive_compressed_animation_vertices_len p) as [ns|]; [|destruct FR]. destruct FD as [_ FD]. destruct FR as [_ FR].
        clear -FD FR. revert fr FR. induction FD as [|f d l frames E FD IH]; intros fr FR; inversion FR; subst; [reflexivity|]. f_equal; [congruence|auto]. }
      unfold frames_decode. rewrite (proj1 (frames_of_set_frames frames' _)), (proj2 (frames_of_set_frames frames' _)). rewrite !map_length, combine_fst_snd. split; [reflexivity|exact W3].
  - subst frames. cbn [rbind] in X. injection X as <-. cbn [xi_mesh option_map attach_mesh rbind]. eexists. split; [reflexivity|]. split; [rewrite without_mesh_bare, bare_bare; reflexivity|].
    split; [rewrite RM, (proj2 (frames_of_bare p)); reflexivity|]. split; [|apply stored_bare].
    intros fr FR. unfold frames_decode in FD, FR |- *. rewrite (proj1 (frames_of_bare p)). destruct (Primitive_compressed_animation_vertices_data p) as [ds|]; [|exact FR].
    destruct (Primitive_compressed_animation_vertices_len p) as [ns|]; [|destruct FR]. destruct FD as [_ FD]. destruct FR as [_ FR].
    inversion FD as [Z1|]; subst. rewrite <- Z1 in FR. inversion FR. reflexivity.
Qed.

Lemma items_back m dir items xs names infos : Forall (extractable_item B m) items -> Forall2 (fun i x => xitem_of B m i = Ok x) items xs ->
  Forall2 (fun n i => exists rest, n = xi_type i ++ lit "." ++ rest) names xs -> (m = FmtGltf -> Forall (fun e => own_bins (fst e) (snd e) dir) (combine names xs)) ->
  List.length infos = List.length items ->
  exists items', try_map (assemble_item B dir) (combine (map (fun e => GameItem_info (fst e) (snd e)) (combine infos items)) (map (fun e => own_data m (fst e) (snd e)) (combine names xs))) = Ok items' /\
    Forall2 (same_item B) items items'.
Proof.
  intros H X. revert names infos. induction X as [|i x items xs E X IH]; intros names infos T OB L.
  - exists []. destruct infos; [|discriminate L]. split; [reflexivity|constructor].
  - destruct infos as [|f infos]; [discriminate L|]. inversion H as [|? ? Hi H']; subst. inversion T as [|n ? names' ? Tn T']; subst. injection L as L.
    destruct (IH H' names' infos T') as (items' & R & S); [|exact L|].
    { intros M. specialize (OB M). cbn [combine] in OB. inversion OB. assumption. }
    assert (TX : xi_type x = GI_type_name i) by (unfold xitem_of in E; destruct (mesh_files B m i); [|discriminate]; cbn [rbind] in E; injection E as <-; reflexivity).
    rewrite TX in Tn. destruct (item_back m i x n f dir Hi E Tn) as (i' & Ei & Si).
    { intros M. specialize (OB M). cbn [combine] in OB. inversion OB. assumption. }
    exists (i' :: items'). cbn [combine map fst snd try_map]. rewrite Ei. cbn [rbind]. rewrite R. split; [reflexivity|constructor; assumption].
Qed.
Lemma infos_names names items : List.length names = List.length items ->
  map gi_file_name (map (fun e => GameItem_info (fst e) (snd e)) (combine names items)) = names.
Proof.
  revert items. induction names as [|n names IH]; intros [|i items] L; try discriminate L; [reflexivity|]. cbn [combine map fst snd]. rewrite IH by (injection L as L; exact L). reflexivity.
Qed.

(** ** Documents *)
Definition some_file (name : string) (o : option bytes) : files := match o with Some d => [(lit name, d)] | None => [] end.
Definition root_files (ver : bytes) (shot : option bytes) (info coll items imgs snds fnts data script : bytes) (mats old phys probes : option bytes) : files :=
  [(lit "version.txt", ver)] ++ some_file "screenshot.png" shot ++
  [(lit "info.json", info); (lit "collections.json", coll); (lit "gameitems.json", items); (lit "images.json", imgs); (lit "sounds.json", snds);
   (lit "fonts.json", fnts); (lit "gamedata.json", data); (lit "script.vbs", script)] ++
  some_file "materials.json" mats ++ some_file "materials-old.json" old ++ some_file "materials-physics-old.json" phys ++ some_file "renderprobes.json" probes.
Lemma root_get ver shot info coll items imgs snds fnts data script mats old phys probes :
  let root := write_all (root_files ver shot info coll items imgs snds fnts data script mats old phys probes) [] in
  hget (lit "version.txt") root = Some ver /\ hget (lit "screenshot.png") root = shot /\ hget (lit "info.json") root = Some info /\
  hget (lit "collections.json") root = Some coll /\ hget (lit "gameitems.json") root = Some items /\ hget (lit "images.json") root = Some imgs /\
  hget (lit "sounds.json") root = Some snds /\ hget (lit "fonts.json") root = Some fnts /\ hget (lit "gamedata.json") root = Some data /\
  hget (lit "script.vbs") root = Some script /\ hget (lit "materials.json") root = mats /\ hget (lit "materials-old.json") root = old /\
  hget (lit "materials-physics-old.json") root = phys /\ hget (lit "renderprobes.json") root = probes.
Proof. destruct shot, mats, old, phys, probes; vm_compute; repeat split; reflexivity. Qed.

Lemma read_document_written {A} name (c : jcodec A) root x y : hget (lit name) root = Some (tb_print B (jc_to c x)) -> jc_of c (jc_to c x) = Ok y ->
  read_document B name c root = Ok (Some y).
Proof. intros H E. unfold read_document. rewrite H, parse_print. cbn [rbind]. rewrite E. reflexivity. Qed.
Lemma read_document_missing {A} name (c : jcodec A) root : hget (lit name) root = None -> read_document B name c root = Ok None.
Proof. intros H. unfold read_document. rewrite H. reflexivity. Qed.
Lemma read_document_option {A} name (c : jcodec A) root o : hget (lit name) root = option_map (fun x => tb_print B (jc_to c x)) o ->
  for_some (restores c) o -> read_document B name c root = Ok o.
Proof.
  intros H R. destruct o as [x|]; cbn [option_map for_some] in *; [exact (read_document_written _ _ _ _ _ H R)|exact (read_document_missing _ _ _ H)].
Qed.
Lemma restores_all {A} (c : jcodec A) (P : A -> Prop) l : (forall x, P x -> restores c x) -> Forall P l -> restores (jc_list c) l.
Proof. intros H F. apply restores_list. eapply Forall_impl; [|exact F]. exact H. Qed.

(** The directory after extraction *)
Record extracted (v : VPX) (t : tree) : Prop := {
  ex_version : hget (lit "version.txt") (t_root t) = Some (utf8_encode (Version_text (vpx_version v)));
  ex_screenshot : hget (lit "screenshot.png") (t_root t) = ti_screenshot (vpx_info v);
  ex_info : read_document B "info.json" jc_TableInfo (t_root t) = Ok (Some (set_ti_screenshot None (vpx_info v), vpx_custominfotags v));
  ex_collections : read_document B "collections.json" (jc_list jc_Collection) (t_root t) = Ok (Some (vpx_collections v));
  ex_items : exists items, assemble_items B t = Ok items /\ Forall2 (same_item B) (vpx_gameitems v) items;
  ex_images : exists index images, read_document B "images.json" (jc_list jc_ImageDataJson) (t_root t) = Ok (Some index) /\
    read_images (tb_key B) (tb_dimensions B) (tb_lzw_encode B) (tb_load B) (tb_checked B) (Some index) (t_images t) = Ok images /\
    Forall2 (same_image (tb_lzw_decode B)) (vpx_images v) images;
  ex_sounds : exists index, read_document B "sounds.json" (jc_list jc_SoundDataJson) (t_root t) = Ok (Some index) /\
    read_sounds (tb_key B) (Some index) (t_sounds t) = Ok (vpx_sounds v);
  ex_fonts : exists index, read_document B "fonts.json" (jc_list jc_FontDataJson) (t_root t) = Ok (Some index) /\
    read_fonts (tb_sanitize B) (tb_key B) (Some index) (t_fonts t) = Ok (vpx_fonts v);
  ex_data : read_document B "gamedata.json" jc_GameData (t_root t) = Ok (Some (GameData_json_part (vpx_gamedata v)));
  ex_script : exists d, hget (lit "script.vbs") (t_root t) = Some d /\ swe_of_bytes d = gt_code (gd_tail (vpx_gamedata v));
  ex_materials : read_document B "materials.json" (jc_list jc_Material) (t_root t) = Ok (gt_materials (gd_tail (vpx_gamedata v)));
  ex_old : gt_materials (gd_tail (vpx_gamedata v)) = None ->
    read_document B "materials-old.json" (jc_list jc_SaveMaterial) (t_root t) = Ok (Some (gt_materials_old (gd_tail (vpx_gamedata v)))) /\
    read_document B "materials-physics-old.json" (jc_list jc_SavePhysicsMaterial) (t_root t) = Ok (gt_materials_physics_old (gd_tail (vpx_gamedata v)));
  ex_probes : read_document B "renderprobes.json" (jc_list jc_RenderProbe) (t_root t) = Ok (gt_render_probes (gd_tail (vpx_gamedata v))) }.

Lemma ok_inj {A} (x y : A) : Ok x = Ok y -> x = y. Proof. congruence. Qed.
Lemma images_index images dir index dir' :
  write_images (tb_sanitize B) (jl_lower (tb_json B)) (tb_key B) (tb_dimensions B) (tb_lzw_decode B) (tb_bmp_encode B) images dir = Ok (index, dir') ->
  Forall (fun i => finite (im_alpha_test_value i)) images -> restores (jc_list jc_ImageDataJson) index.
Proof.
  intros H F. unfold write_images in H. destruct (write_image_files _ _ _ _ dir) as [d|]; [|discriminate]. cbn [rbind] in H. injection H as <- _.
  apply restores_list. unfold indexed_images. generalize (name_dedups (tb_sanitize B) (jl_lower (tb_json B)) [] 0 (map im_name images)) as l.
  induction F as [|v images Fv F IH]; intros l; [destruct (map _ (combine l [])); constructor|].
  destruct l as [|d0 l]; [constructor|]. cbn [combine map]. constructor; [|apply IH]. apply (restores_ImageDataJson lib). cbn [fst snd].
  unfold index_image. destruct (stored_size _ _ v) as [w h]. unfold ImageDataJson_of. destruct (im_jpeg v) as [j|];
    (cbn [set_aj_size set_aj_name_dedup aj_alpha_test_value]; destruct (w32_eqb _ _); [exact I|exact Fv]).
Qed.
Lemma schedule_ok l : Permutation l (tb_schedule B l). Proof. apply Permutation_sym, ok. Qed.

Lemma written m v t : extractable B m v -> write_fs B m v empty_tree = Ok t -> extracted v t.
Proof.
  intros (HI & HX & HV & HA & HS & HF & HG) H. unfold write_fs in H.
  destruct (try_map (xitem_of B m) (vpx_gameitems v)) as [xs|] eqn:EX; [|discriminate]. cbn [rbind] in H. apply try_map_forall2 in EX.
  cbn [t_items t_images t_sounds t_fonts t_root empty_tree] in H.
  assert (FIN : Forall GI_finite (vpx_gameitems v)) by (eapply Forall_impl; [|exact HX]; intros i [Hi _]; exact Hi).
  assert (AT : forall x, In x xs -> exists i, In i (vpx_gameitems v) /\ xitem_of B m i = Ok x).
  { clear -EX. induction EX as [|i x l l' E EX IH]; intros y Hy; [destruct Hy|]. destruct Hy as [->|Hy]; [exists i; split; [left; reflexivity|exact E]|].
    destruct (IH y Hy) as (j & Hj & Ej). exists j. split; [right; exact Hj|exact Ej]. }
  assert (PR : forall i x, xitem_of B m i = Ok x -> xi_name x = GI_name i /\ (xi_mesh x <> None -> is_primitive i = true)).
  { intros i x E. unfold xitem_of in E. destruct (mesh_files B m i) as [me|] eqn:M; [|discriminate]. cbn [rbind] in E. injection E as <-. split; [reflexivity|].
    cbn [xi_mesh]. intros Hm. destruct i; cbn [mesh_files] in M; try (injection M as <-; congruence). reflexivity. }
  destruct (C31_round_trip (jl_lower (tb_json B)) (tb_alphanumeric B) (json_is_primitive B) m xs) as (names & per_item & WG & TN & RG).
  { apply ok. } { apply ok. }
  { intros x Hx Hm. destruct (AT x Hx) as (i & Hi & E). rewrite (xitem_primitive m i x (proj1 (Forall_forall _ _) FIN i Hi) E). apply (PR i x E), Hm. }
  { intros x Hx Hp. destruct (AT x Hx) as (i & Hi & E). rewrite (xitem_primitive m i x (proj1 (Forall_forall _ _) FIN i Hi) E) in Hp.
    pose proof (proj1 (Forall_forall _ _) HX i Hi) as [_ K]. destruct i; try discriminate Hp. destruct K as [K _].
    unfold clear_name, file_safe_name in *. rewrite (proj1 (PR _ x E)). exact K. }
  set (index := map (fun n => n ++ lit ".json") names) in *. pose proof WG as WG'. rewrite WG' in H. cbn [rbind] in H.
  destruct (write_images _ _ _ _ _ _ (vpx_images v) []) as [[images images_dir]|] eqn:WI; [|discriminate]. cbn [rbind] in H.
  destruct (write_sounds _ _ _ _ (vpx_sounds v) []) as [[sounds sounds_dir]|] eqn:WS; [|discriminate]. cbn [rbind] in H.
  destruct (write_fonts _ _ (vpx_fonts v) []) as [fonts fonts_dir] eqn:WF.
  destruct HG as (GF & (script & SC) & GM & GO & GP).
  rewrite SC in H. rewrite swe_bytes_roundtrip in H. cbn [rbind] in H. apply ok_inj in H. subst t.
  set (g := gd_tail (vpx_gamedata v)) in *.
  set (json_of := fun (A : Type) (c : jcodec A) (x : A) => tb_print B (jc_to c x)).
  set (mats := option_map (json_of _ (jc_list jc_Material)) (gt_materials g)).
  set (old := match gt_materials g with Some _ => None | None => Some (json_of _ (jc_list jc_SaveMaterial) (gt_materials_old g)) end).
  set (phys := match gt_materials g with Some _ => None | None => option_map (json_of _ (jc_list jc_SavePhysicsMaterial)) (gt_materials_physics_old g) end).
  set (probes := option_map (json_of _ (jc_list jc_RenderProbe)) (gt_render_probes g)).
  set (infos := map (fun e => GameItem_info (fst e) (snd e)) (combine index (vpx_gameitems v))).
  match goal with |- extracted v (mkTree (write_all ?l []) _ _ _ _) =>
    assert (ER : l = root_files (utf8_encode (Version_text (vpx_version v))) (ti_screenshot (vpx_info v)) (json_of _ jc_TableInfo (vpx_info v, vpx_custominfotags v))
      (json_of _ (jc_list jc_Collection) (vpx_collections v)) (json_of _ (jc_list jc_GameItemInfo) infos) (json_of _ (jc_list jc_ImageDataJson) images)
      (json_of _ (jc_list jc_SoundDataJson) sounds) (json_of _ (jc_list jc_FontDataJson) fonts) (json_of _ jc_GameData (vpx_gamedata v)) script mats old phys probes) end.
  { unfold root_files, material_files, document, when, some_file, mats, old, phys, probes, json_of.
    destruct (ti_screenshot (vpx_info v)), (gt_materials g), (gt_materials_physics_old g), (gt_render_probes g); reflexivity. }
  rewrite ER. clear ER.
  match goal with |- extracted v (mkTree (write_all (root_files ?a ?b ?c ?d ?e ?f ?h ?i ?j ?k ?l ?m ?n ?o) []) _ _ _ _) =>
    pose proof (root_get a b c d e f h i j k l m n o) as R end. cbv zeta in R.
  destruct R as (R1 & R2 & R3 & R4 & R5 & R6 & R7 & R8 & R9 & R10 & R11 & R12 & R13 & R14).
  constructor; cbn [t_root t_items t_images t_sounds t_fonts]; try assumption.
  - apply (read_document_written _ _ _ _ _ R3). exact (json_TableInfo _ _ HI).
  - apply (read_document_written _ _ _ _ _ R4). apply restores_list, Forall_forall. intros c _. exact (restores_Collection c).
  - assert (LI : List.length index = List.length (vpx_gameitems v)).
    { unfold index. rewrite map_length. rewrite (forall2_length _ _ _ TN). symmetry. exact (forall2_length _ _ _ EX). }
    unfold assemble_items. cbn [t_root t_items]. rewrite (read_document_written _ _ _ _ infos R5).
    2: { apply restores_list, Forall_forall. intros i _. exact (restores_GameItemInfo i). }
    cbn [rbind]. unfold infos at 1. rewrite infos_names by exact LI. destruct (RG _ (schedule_ok (List.concat per_item))) as [RG1 RG2]. rewrite RG1. cbn [rbind].
    apply items_back; assumption.
  - destruct (C32_images _ _ _ _ (tb_lzw_encode B) _ _ (tb_load B) (tb_checked B) _ _ _ _ HV WI) as [(got & RI & SI) _].
    exists images, got. split; [|split; assumption]. apply (read_document_written _ _ _ _ _ R6). exact (images_index _ _ _ _ WI HA).
  - exists sounds. split; [|exact (proj1 (C32_sounds _ _ _ _ _ _ _ _ HS WS))]. apply (read_document_written _ _ _ _ _ R7).
    apply restores_list, Forall_forall. intros x _. exact (restores_SoundDataJson x).
  - exists fonts. split; [|exact (C33_fonts _ _ _ _ HF _ _ WF)]. apply (read_document_written _ _ _ _ _ R8).
    apply restores_list, Forall_forall. intros x _. exact (restores_FontDataJson x).
  - apply (read_document_written _ _ _ _ _ R9). exact (json_GameData lib _ GF).
  - exists script. split; [exact R10|symmetry; exact SC].
  - apply (read_document_option _ _ _ (gt_materials g) R11). destruct (gt_materials g) as [ms|]; [|exact I]. exact (restores_all _ _ _ (restores_Material lib) GM).
  - fold g. intros N. assert (O : old = Some (json_of _ (jc_list jc_SaveMaterial) (gt_materials_old g))) by (unfold old; rewrite N; reflexivity).
    assert (P : phys = option_map (json_of _ (jc_list jc_SavePhysicsMaterial)) (gt_materials_physics_old g)) by (unfold phys; rewrite N; reflexivity).
    pose proof (eq_trans R12 O) as R12'. pose proof (eq_trans R13 P) as R13'. split.
    + apply (read_document_written _ _ _ _ _ R12'). exact (restores_all _ _ _ (restores_SaveMaterial lib) (GO N)).
    + apply (read_document_option _ _ _ (gt_materials_physics_old g) R13'). destruct (gt_materials_physics_old g) as [l|]; [|exact I].
      apply restores_list, Forall_forall. intros x _. exact (restores_SavePhysicsMaterial lib x).
  - apply (read_document_option _ _ _ (gt_render_probes g) R14). destruct (gt_render_probes g) as [l|]; [|exact I]. exact (restores_all _ _ _ (restores_RenderProbe lib) GP).
Qed.

(** ** Reading *)
Lemma Version_text_utf8 v : utf8_decode (utf8_encode (Version_text v)) = Some (Version_text v).
Proof.
  apply utf8_decode_encode. unfold is_rstring, Version_text. pose proof (dec_text_digits (Z.to_N (w32_to_Z v))) as D. apply forallb_forall.
  intros c Hc. pose proof (proj1 (Forall_forall _ _) D c Hc) as H. change uchar with N in *. cbv beta in H. unfold is_scalar.
  apply orb_true_iff. left. apply N.ltb_lt. lia.
Qed.
Lemma legacy_materials ms : Forall Material_finite ms -> exists old, try_map SaveMaterial_of ms = Ok old.
Proof.
  induction 1 as [|m ms Hm H (old & E)]; [exists []; reflexivity|]. destruct Hm as (_ & _ & Hg & Ht & _ & Ha & _).
  assert (NN : forall x, finite x -> is_nan x = false).
  { intros x Hx. unfold finite, magnitude in Hx. unfold is_nan, f32_value. pose proof (w32_to_Z_range x) as R. pose proof (Z.mod_pos_bound (w32_to_Z x) 8388608 ltac:(lia)) as M.
    replace ((w32_to_Z x / 8388608) mod 256 =? 255) with false.
    - destruct (_ =? 0); [destruct (w32_to_Z x mod 8388608); reflexivity|]. destruct (w32_to_Z x mod 8388608 + 8388608) eqn:EE; try reflexivity; lia.
    - symmetry. apply Z.eqb_neq. Z.div_mod_to_equations. lia. }
  unfold try_map. fold (try_map SaveMaterial_of ms). unfold SaveMaterial_of at 1.
  destruct (ge0_of_clamp0 _ (NN _ Hg)) as (q & ->). cbn [rbind]. destruct (ge0_of_clamp05 _ (NN _ Ht)) as (q' & -> & _). cbn [rbind].
  destruct (ge0_of_clamp0_7 _ (NN _ Ha)) as (q'' & ->). cbn [rbind]. rewrite E. eexists. reflexivity.
Qed.


Lemma materials_read root g old_fields :
  read_document B "materials.json" (jc_list jc_Material) root = Ok (gt_materials g) -> for_some (Forall Material_finite) (gt_materials g) ->
  (gt_materials g = None -> read_document B "materials-old.json" (jc_list jc_SaveMaterial) root = Ok (Some (gt_materials_old g)) /\
     read_document B "materials-physics-old.json" (jc_list jc_SavePhysicsMaterial) root = Ok (gt_materials_physics_old g)) ->
  gt_materials old_fields = None ->
  exists size old physics, assemble_materials B root old_fields =
    Ok (set_gt_materials_size size (set_gt_materials_old old (set_gt_materials_physics_old physics (set_gt_materials (gt_materials g) old_fields)))) /\
    (materials_agree g -> size = gt_materials_size g) /\ (gt_materials g = None \/ materials_agree g -> old = gt_materials_old g /\ physics = gt_materials_physics_old g) /\
    materials_agree (set_gt_materials_size size (set_gt_materials_old old (set_gt_materials_physics_old physics (set_gt_materials (gt_materials g) old_fields)))).
Proof.
  intros E F O N. unfold assemble_materials. rewrite E. cbn [rbind]. destruct (gt_materials g) as [ms|] eqn:EM.
  - destruct (legacy_materials ms F) as (old & EO). rewrite EO. cbn [rbind].
    exists (Z_to_w32 (zlen ms)), old, (Some (map SavePhysicsMaterial_of ms)). split; [reflexivity|]. pose proof (proj1 (try_map_forall2 _ _ _) EO) as FO.
    split; [|split].
    + unfold materials_agree. rewrite EM. intros (_ & _ & ->). reflexivity.
    + unfold materials_agree. rewrite EM. intros [C|(FO' & -> & _)]; [discriminate|]. split; [|reflexivity].
      clear -FO FO'. revert FO'. generalize (gt_materials_old g). induction FO as [|m s l l' E FO IH]; intros k K; inversion K as [|? s' ? ? E' K']; subst; [reflexivity|].
      f_equal; [congruence|apply IH, K'].
    + split; [exact FO|split; reflexivity].
  - destruct (O eq_refl) as (-> & ->). cbn [rbind]. exists (Z_to_w32 (zlen (gt_materials_old g))), (gt_materials_old g), (gt_materials_physics_old g).
    split; [destruct old_fields; cbn in N |- *; subst; reflexivity|]. split; [|split].
    + unfold materials_agree. rewrite EM. intros ->. reflexivity.
    + split; reflexivity.
    + reflexivity.
Qed.
Lemma materials_agree_kept probes data g : materials_agree g -> materials_agree (gd_tail (set_gd_tail (set_gt_render_probes probes g) data)).
Proof. destruct g, data. exact (fun H => H). Qed.
Lemma forall2_zlen {X Y} (R : X -> Y -> Prop) l l' : Forall2 R l l' -> zlen l' = zlen l.
Proof. intros H. unfold zlen. do 1 f_equal. induction H; cbn; congruence. Qed.

Lemma assembled m v t : extractable B m v -> extracted v t -> exists v', read_fs B t = Ok v' /\ same_lists B v v' /\ same_data v v' /\
  counts_agree v' /\ materials_agree (gd_tail (vpx_gamedata v')) /\
  (counts_agree v -> materials_agree (gd_tail (vpx_gamedata v)) -> vpx_gamedata v' = vpx_gamedata v).
Proof.
  intros (_ & _ & _ & _ & _ & _ & GF & _ & GM & _) [].
  destruct ex_items0 as (items & EI & FI), ex_images0 as (aidx & images & EA & RA & FA), ex_sounds0 as (sidx & ES & RS), ex_fonts0 as (fidx & EF & RF), ex_script0 as (d & ED & SD).
  unfold read_fs. rewrite ex_version0. cbn [required rbind]. rewrite Version_text_utf8. cbn [required rbind]. rewrite Version_parse_text. cbn [rbind].
  rewrite ex_screenshot0, ex_info0. cbn [rbind]. rewrite ex_collections0. cbn [rbind or_else]. rewrite EI. cbn [rbind]. rewrite EA. cbn [rbind]. rewrite RA. cbn [rbind].
  rewrite ES. cbn [rbind]. rewrite RS. cbn [rbind]. rewrite EF. cbn [rbind]. rewrite RF. cbn [rbind]. rewrite ex_data0. cbn [required rbind]. rewrite ED. cbn [required rbind].
  match goal with |- context [assemble_materials B _ ?g] => destruct (materials_read (t_root t) (gd_tail (vpx_gamedata v)) g ex_materials0 GM ex_old0 eq_refl) as (size & old & physics & -> & SA & OA & MA) end.
  cbn [rbind]. rewrite ex_probes0. cbn [rbind]. eexists. split; [reflexivity|].
  rewrite (forall2_zlen _ _ _ FI), (forall2_zlen _ _ _ FA) in *. rewrite SD in *.
  split; [|split; [|split; [|split]]].
  - unfold same_lists. cbn [vpx_custominfotags vpx_info vpx_version vpx_gameitems vpx_images vpx_sounds vpx_fonts vpx_collections].
    repeat (split; [first [reflexivity|assumption|destruct (vpx_info v); reflexivity]|]). reflexivity.
  - unfold same_data. cbn [vpx_gamedata]. destruct (vpx_gamedata v) as [? ? ? ? ? g ? ?]. destruct g. cbn in OA |- *. repeat (split; [reflexivity|]).
    intros N. apply OA. left. exact N.
  - unfold counts_agree. cbn [vpx_gamedata vpx_gameitems vpx_images vpx_sounds vpx_fonts vpx_collections].
    rewrite (forall2_zlen _ _ _ FI), (forall2_zlen _ _ _ FA). repeat split.
  - exact (materials_agree_kept _ _ _ MA).
  - intros (C1 & C2 & C3 & C4 & C5) M. specialize (SA M). destruct (OA (or_intror M)) as [OA1 OA2]. cbn [vpx_gamedata]. rewrite SA, OA1, OA2, <- C1, <- C2, <- C3, <- C4, <- C5.
    destruct (vpx_gamedata v) as [? ? ? ? ? g ? ?]. destruct g. reflexivity.
Qed.

(** ** Writing succeeds *)
Lemma xitem_exists m i : extractable_item B m i -> exists x, xitem_of B m i = Ok x.
Proof.
  intros [_ H]. unfold xitem_of. assert (G : exists x, mesh_files B m i = Ok x); [|destruct G as (x & ->); eexists; reflexivity].
  destruct i as [v|v|v|v|v|v|v|v|v|v|v|v|v|v|v|p|v|v|v|v|v|t g]; try (eexists; reflexivity). destruct H as (_ & mesh & frames & RM & FD & K). unfold mesh_files. rewrite RM. cbn [rbind].
  destruct mesh as [[vs fs]|]; [|eexists; reflexivity]. unfold frames_decode in FD.
  destruct (Primitive_compressed_animation_vertices_data p) as [ds|]; [|eexists; reflexivity].
  destruct (Primitive_compressed_animation_vertices_len p) as [ns|]; [|destruct FD]. destruct FD as [_ FD].
  rewrite (frames_written m (GI_name (GI_Primitive p)) vs fs _ _ FD). eexists. reflexivity.
Qed.
Lemma write_succeeds m v : extractable B m v -> ordinary_names B v -> exists t, write_fs B m v empty_tree = Ok t.
Proof.
  intros (HI & HX & HV & HA & HS & HF & HG) (KD & TA & OI & OS).
  assert (EX : exists xs, try_map (xitem_of B m) (vpx_gameitems v) = Ok xs).
  { clear -HX. induction HX as [|i l Hi H (xs & E)]; [exists []; reflexivity|]. destruct (xitem_exists m i Hi) as (x & X). exists (x :: xs). cbn [try_map]. rewrite X. cbn [rbind].
    rewrite E. reflexivity. }
  destruct EX as (xs & EX). unfold write_fs. rewrite EX. cbn [rbind]. cbn [t_items t_images t_sounds t_fonts t_root empty_tree].
  destruct (C31_unique (jl_lower (tb_json B)) (tb_alphanumeric B) xs) as (names & EN & _); [apply ok|].
  unfold write_gameitems. rewrite EN. cbn [rbind]. replace (existsb _ names) with false by (clear; induction names as [|n l IH]; [reflexivity|exact IH]). cbn [rbind].
  destruct (C32_images_written (tb_sanitize B) (jl_lower (tb_json B)) (tb_key B) (tb_dimensions B) _ _ _ _ _ KD TA OI HV) as (ii & di & ->). cbn [rbind].
  destruct (C32_sounds_written (tb_sanitize B) (jl_lower (tb_json B)) (tb_key B) (tb_checked B) _ KD TA OS HS) as (si & ds & ->). cbn [rbind].
  destruct (write_fonts _ _ _ _) as [fi df]. destruct HG as (_ & (script & SC) & _). rewrite SC, swe_bytes_roundtrip. cbn [rbind]. eexists. reflexivity.
Qed.
End Facts.

(** ** Any directory *)
Ltac step H := match type of H with
  | rbind ?e _ = Ok _ => let x := fresh "x" in let E := fresh "E" in destruct e as [x|] eqn:E; [cbn [rbind] in H|discriminate H]
  end.
Lemma materials_recomputed B root g g' : assemble_materials B root g = Ok g' -> gt_materials g = None -> gt_materials_size g = Z_to_w32 (zlen (gt_materials_old g)) ->
  (exists size old physics materials, g' = set_gt_materials_size size (set_gt_materials_old old (set_gt_materials_physics_old physics (set_gt_materials materials g)))) /\
  materials_agree g'.
Proof.
  intros H N S. unfold assemble_materials in H. step H. destruct x as [ms|].
  - step H. injection H as <-. split; [exists (Z_to_w32 (zlen ms)), x, (Some (map SavePhysicsMaterial_of ms)), (Some ms); destruct g; reflexivity|].
    unfold materials_agree. apply try_map_forall2 in E0. destruct g; cbn. repeat split. exact E0.
  - step H. destruct x as [old|].
    + step H. injection H as <-. split; [exists (Z_to_w32 (zlen old)), old, x, (gt_materials g); destruct g; reflexivity|]. unfold materials_agree.
      destruct g; cbn in N |- *. subst. reflexivity.
    + injection H as <-. split; [exists (gt_materials_size g), (gt_materials_old g), (gt_materials_physics_old g), (gt_materials g); destruct g; reflexivity|].
      unfold materials_agree. rewrite N. exact S.
Qed.
Lemma gives_rbind {A C} (P : C -> Prop) (e : res A) (k : A -> res C) : (forall x v, k x = Ok v -> P v) -> forall v, rbind e k = Ok v -> P v.
Proof. intros H v E. destruct e as [x|]; [|discriminate E]. exact (H x v E). Qed.
(** What gamedata.json does not hold is left at its defaults *)
Lemma data_alone {L : json_lib} j g : jc_of jc_GameData j = Ok g -> GameData_json_part g = g.
Proof.
  unfold jc_GameData, jc_record. cbn [jc_of]. destruct j; try discriminate. revert g.
  repeat (apply gives_rbind; intros ?). intros g E. injection E as <-. reflexivity.
Qed.
Lemma recomputed B t v : read_fs B t = Ok v -> counts_agree v /\ materials_agree (gd_tail (vpx_gamedata v)).
Proof.
  intros H. unfold read_fs in H. step H. step H. step H. step H. destruct (match x2 with Some _ => _ | None => _ end) as [info tags].
  do 11 step H. step H. step H. injection H as <-.
  assert (A : GameData_json_part x12 = x12).
  { destruct x11 as [d|]; [|discriminate]. cbn [required] in *. match goal with E : Ok d = Ok x12 |- _ => injection E as -> end.
    match goal with E : read_document B "gamedata.json" _ _ = _ |- _ => rename E into R end.
    unfold read_document in R. destruct (hget (lit "gamedata.json") (t_root t)) as [f|]; [|discriminate R]. step R. step R. injection R as <-.
    eapply data_alone. eassumption. }
  apply materials_recomputed in E14; [|rewrite <- A; reflexivity|rewrite <- A; reflexivity]. destruct E14 as ((s1 & s2 & s3 & s4 & ->) & M).
  split; [|exact (materials_agree_kept _ _ _ M)].
  unfold counts_agree. cbn [vpx_gamedata vpx_gameitems vpx_images vpx_sounds vpx_fonts vpx_collections]. repeat split.
Qed.

Lemma missing_document B name {A} (c : jcodec A) root x : hget (lit name) root = None -> read_document B name c root = Ok x -> x = None.
Proof. intros H E. unfold read_document in E. rewrite H in E. congruence. Qed.
Lemma required_files B t v : read_fs B t = Ok v ->
  (forall name, In name ["version.txt"; "gamedata.json"; "script.vbs"]%string -> hget (lit name) (t_root t) <> None) /\
  (hget (lit "collections.json") (t_root t) = None -> vpx_collections v = []) /\ (hget (lit "gameitems.json") (t_root t) = None -> vpx_gameitems v = []) /\
  (hget (lit "images.json") (t_root t) = None -> vpx_images v = []) /\ (hget (lit "sounds.json") (t_root t) = None -> vpx_sounds v = []) /\
  (hget (lit "fonts.json") (t_root t) = None -> vpx_fonts v = []) /\
  (hget (lit "info.json") (t_root t) = None -> vpx_info v = TableInfo_new /\ vpx_custominfotags v = []).
Proof.
  intros H. unfold read_fs in H. step H. step H. step H. step H. destruct (match x2 with Some _ => _ | None => _ end) as [info tags] eqn:EI.
  do 11 step H. step H. step H. injection H as <-. cbn [vpx_gamedata vpx_gameitems vpx_images vpx_sounds vpx_fonts vpx_collections vpx_info vpx_custominfotags].
  split; [|split; [|split; [|split; [|split; [|split]]]]].
  - intros name [<-|[<-|[<-|[]]]] N.
    + rewrite N in E. discriminate E.
    + apply (missing_document B "gamedata.json" _ _ _ N) in E11. subst x11. discriminate E12.
    + rewrite N in E13. discriminate E13.
  - intros N. apply (missing_document B "collections.json" _ _ _ N) in E3. subst x3. reflexivity.
  - intros N. unfold assemble_items in E4. unfold read_document in E4. rewrite N in E4. cbn [rbind] in E4. congruence.
  - intros N. apply (missing_document B "images.json" _ _ _ N) in E5. subst x5. cbn [read_images] in E6. congruence.
  - intros N. apply (missing_document B "sounds.json" _ _ _ N) in E7. subst x7. cbn [read_sounds] in E8. congruence.
  - intros N. apply (missing_document B "fonts.json" _ _ _ N) in E9. subst x9. cbn [read_fonts] in E10. congruence.
  - intros N. apply (missing_document B "info.json" _ _ _ N) in E2. subst x2. injection EI as <- <-. split; reflexivity.
Qed.

Lemma hget_in (fs : files) p d : In (p, d) fs -> hget p fs <> None.
Proof.
  induction fs as [|[q e] fs IH]; intros H; [destruct H|]. cbn [hget]. destruct (rstring_eqb p q) eqn:E; [discriminate|].
  destruct H as [H|H]; [|exact (IH H)]. injection H as -> ->. rewrite (proj2 (rstring_eqb_eq p p) eq_refl) in E. discriminate E.
Qed.
Lemma hget_in_written fs p d dir : In (p, d) fs -> hget p (write_all fs dir) <> None.
Proof.
  intros H. rewrite hget_write_all. apply in_rev in H. apply hget_in in H. destruct (hget p (rev fs)); [discriminate|congruence].
Qed.
Lemma other_format B m m' i x : xitem_of B m i = Ok x -> exists x', xitem_of B m' i = Ok x' /\ xi_type x' = xi_type x /\ xi_name x' = xi_name x.
Proof.
  unfold xitem_of. intros H. step H. injection H as <-. destruct i as [v|v|v|v|v|v|v|v|v|v|v|v|v|v|v|p|v|v|v|v|v|t g]; try (eexists; split; [reflexivity|split; reflexivity]).
  unfold mesh_files in E |- *. destruct (read_mesh _ _) as [mesh|]; [|discriminate E]. cbn [rbind] in E |- *. destruct mesh as [[vs fs]|]; [|eexists; split; [reflexivity|split; reflexivity]].
  assert (G : forall l r, frame_meshes B m (GI_name (GI_Primitive p)) vs fs l = Ok r -> exists r', frame_meshes B m' (GI_name (GI_Primitive p)) vs fs l = Ok r').
  { induction l as [|[d n] l IH]; intros r R; [eexists; reflexivity|]. cbn [frame_meshes] in R |- *. step R. cbn [rbind]. step R. destruct (IH _ eq_refl) as (r' & ->). eexists. reflexivity. }
  destruct (Primitive_compressed_animation_vertices_data p) as [ds|]; [|eexists; split; [reflexivity|split; reflexivity]].
  destruct (Primitive_compressed_animation_vertices_len p) as [ns|]; [|discriminate E]. step E. destruct (G _ _ E0) as (r' & ->). eexists. split; [reflexivity|split; reflexivity].
Qed.
Lemma other_formats B m m' items xs : Forall2 (fun i x => xitem_of B m i = Ok x) items xs -> exists xs', try_map (xitem_of B m') items = Ok xs' /\
  forall lower alphanumeric used, file_names lower alphanumeric used xs' = file_names lower alphanumeric used xs.
Proof.
  induction 1 as [|i x items xs E F (xs' & T & N)]; [exists []; split; reflexivity|]. destruct (other_format B m m' i x E) as (x' & E' & A & C). exists (x' :: xs').
  cbn [try_map]. rewrite E'. cbn [rbind]. rewrite T. split; [reflexivity|]. intros lower alphanumeric used. cbn [file_names]. unfold wanted_name. rewrite A, C.
  destruct (ensure_unique _ _ _) as [[n u]|]; [|reflexivity]. cbn [rbind]. rewrite N. reflexivity.
Qed.
Lemma written_twice B : toolbox_ok B -> forall m m' v t, write_fs B m v empty_tree = Ok t -> vpx_gameitems v <> [] -> write_fs B m' v t = Err.
Proof.
  intros ok m m' v t H N. unfold write_fs in H |- *. step H. apply try_map_forall2 in E. destruct (other_formats B m m' _ _ E) as (xs' & T & FN). rewrite T. cbn [rbind].
  step H. destruct x0 as [names per_item]. step H. destruct x0. step H. destruct x0.
  destruct (write_fonts _ _ _ _) as [fi df]. step H. apply ok_inj in H. subst t. cbn [t_items t_images t_sounds t_fonts t_root empty_tree] in *.
  unfold write_gameitems in E0 |- *. rewrite FN. step E0. cbn [rbind]. destruct (existsb _ x1); [discriminate E0|]. apply ok_inj in E0. injection E0 as <- <-.
  destruct (C31_unique (jl_lower (tb_json B)) (tb_alphanumeric B) x) as (names' & EN & L & _); [apply ok|]. rewrite E4 in EN. injection EN as <-.
  destruct E as [|i y is ys Ey E]; [congruence|]. destruct x1 as [|n ns]; [discriminate L|].
  cbn [existsb]. match goal with |- context [hget ?p (write_all ?l [])] => destruct (hget p (write_all l [])) as [d|] eqn:G; [reflexivity|exfalso] end.
  cbn [combine map List.concat fst snd] in G. refine (hget_in_written _ _ (xi_json y) _ _ G).
  apply (Permutation_in _ (schedule_ok B ok _)). left. reflexivity.
Qed.

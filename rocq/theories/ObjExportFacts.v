(** Facts about exporting a table to OBJ. *)
From Verif Require Import Base Text Biff Json Image Quantize ColorText Cfb JsonFloat Mesh SpecMesh Browser Common Enums Structs StructMaterial GameItem GDBounds GDScene GDPhysics GDCabinet GDDesktop GameData.
From Verif Require Import ItemWall ItemRamp ItemRubber ItemBumper ItemPlunger ItemFlipper ItemGate ItemKicker ItemSpinner ItemHitTarget ItemTrigger ItemPrimitive.
From Verif Require Import Sound Vpx Compat Builtin Polygon Smooth FileSystem Walls RubberMesh Ramps Transform ExpandedItems ObjExport SpecObjExport BaseFacts SoundFacts CfbFacts ExpandedItemsFacts.

(** ** The lines of a part *)
Section Lines.
Variables (T : export_tools) (v : VPX) (o : ObjExportOptions).

Lemma material_name_eq m t : mtl_name_of T o m t = exported_material (et_sanitize T) (oo_extract_textures o) m t.
Proof.
  unfold mtl_name_of, exported_material, sanitize_material_name. destruct t as [[|c t]|]; [rewrite app_nil_r; reflexivity| |rewrite app_nil_r; reflexivity].
  destruct (oo_extract_textures o); [reflexivity|rewrite app_nil_r; reflexivity].
Qed.

Lemma image_keeps n s p s' : ensure_image_written T v n s = Ok (p, s') ->
  ws_obj s' = ws_obj s /\ ws_mtl s' = ws_mtl s /\ ws_face_offset s' = ws_face_offset s /\ ws_seen_mtl_pairs s' = ws_seen_mtl_pairs s.
Proof.
  unfold ensure_image_written. destruct (lookup n (ws_image_filenames s)); [intros [= <- <-]; auto|]. destruct (image_by_name v n) as [i|]; [|intros [= <- <-]; auto].
  destruct (im_jpeg i) as [j|], (im_bits i) as [b|]; try (intros [= <- <-]; auto);
    (destruct (sanitized_image_filename T s (im_name i) (ImageData_ext i)) as [[f c]|e]; cbn [rbind]; [|discriminate]).
  - intros [= <- <-]. auto.
  - intros [= <- <-]. auto.
  - destruct (write_image_bmp _ _ _ _ _); cbn [rbind]; [|discriminate]. intros [= <- <-]. auto.
Qed.

Definition map_path_of (t : option rstring) (s : WriterState) : res (option rstring * WriterState) :=
  match t with Some t => if oo_extract_textures o then ensure_image_written T v t s else Ok (None, s) | None => Ok (None, s) end.
Lemma path_keeps t s p s' : map_path_of t s = Ok (p, s') ->
  ws_obj s' = ws_obj s /\ ws_mtl s' = ws_mtl s /\ ws_face_offset s' = ws_face_offset s /\ ws_seen_mtl_pairs s' = ws_seen_mtl_pairs s.
Proof. unfold map_path_of. destruct t as [t|]; [destruct (oo_extract_textures o); [apply image_keeps|]|]; intros [= <- <-]; auto. Qed.

Lemma emit_keeps m t s n s' : emit_mtl_block T v o m t s = Ok (n, s') -> n = mtl_name_of T o m t /\ ws_obj s' = ws_obj s /\ ws_face_offset s' = ws_face_offset s.
Proof.
  unfold emit_mtl_block. fold (map_path_of t s). destruct (map_path_of t s) as [[p s1]|e] eqn:E; cbn [rbind]; [|discriminate].
  destruct (path_keeps _ _ _ _ E) as (A & _ & B & _). rewrite <- A, <- B.
  destruct (oo_dedup_mtl_blocks o || _); [destruct (seen _ _)|]; intros [= <- <-]; auto.
Qed.

Definition use_lines (b : Block) : list obj_line := match bl_material b with Some m => [OUse (mtl_name_of T o m (bl_texture b))] | None => [] end.
Definition block_lines (b : Block) (faces : list obj_line) : list obj_line :=
  ([OObject (bl_name b)] ++ map (position_line o b) (bl_vertices b) ++ map texture_line (bl_vertices b) ++ map normal_line (bl_vertices b)) ++
  use_lines b ++ (if bl_smoothing b then [OSmooth 1] else []) ++ faces.

Lemma drawn_empty b : is_empty (bl_vertices b) || is_empty (bl_faces b) = negb (drawn b).
Proof. unfold drawn. destruct (bl_vertices b), (bl_faces b); reflexivity. Qed.

Lemma block_written checked b s s' : drawn b = true -> write_block T v o checked b s = Ok s' ->
  exists faces, map_res (face_line checked (ws_face_offset s)) (bl_faces b) = Ok faces /\ ws_obj s' = ws_obj s ++ block_lines b faces /\
    ws_face_offset s' = Z.min 4294967295 (ws_face_offset s + zlen (bl_vertices b) mod 4294967296).
Proof.
  intros D. unfold write_block. rewrite drawn_empty, D. cbn [negb].
  set (head := [OObject (bl_name b)] ++ map (position_line o b) (bl_vertices b) ++ map texture_line (bl_vertices b) ++ map normal_line (bl_vertices b)).
  unfold block_lines. fold head. clearbody head.
  assert (X : forall s1, match bl_material b with Some material => '(name, s) <~ emit_mtl_block T v o material (bl_texture b) (put_obj head s) ;; Ok (put_obj [OUse name] s) | None => Ok (put_obj head s) end = Ok s1 ->
                ws_obj s1 = ws_obj s ++ head ++ use_lines b /\ ws_face_offset s1 = ws_face_offset s).
  { intros s1. unfold use_lines. destruct (bl_material b) as [m|]; [|intros [= <-]; cbn [put_obj ws_obj ws_face_offset]; rewrite app_nil_r; auto].
    destruct (emit_mtl_block T v o m (bl_texture b) (put_obj head s)) as [[n s2]|e] eqn:E; cbn [rbind]; [|discriminate]. intros [= <-].
    destruct (emit_keeps _ _ _ _ _ E) as (-> & A & B). cbn [put_obj ws_obj ws_face_offset] in *. rewrite A, B, <- app_assoc. auto. }
  cbv zeta. destruct (match bl_material b with Some material => _ | None => _ end) as [s1|e]; cbn [rbind]; [|discriminate]. destruct (X s1 eq_refl) as [A B]. clear X.
  replace (ws_face_offset (if bl_smoothing b then put_obj [OSmooth 1] s1 else s1)) with (ws_face_offset s) by (destruct (bl_smoothing b); symmetry; exact B).
  destruct (map_res (face_line checked (ws_face_offset s)) (bl_faces b)) as [faces|e]; cbn [rbind]; [|discriminate]. intros [= <-]. exists faces. split; [reflexivity|].
  split; [|reflexivity]. destruct (bl_smoothing b); cbn [put_offset put_obj ws_obj]; rewrite A, <- ?app_assoc; reflexivity.
Qed.

Lemma read_positions b ws : forall rest ps ts ns n m g, read_shapes (mkSeen ps ts ns n m g) (map (position_line o b) ws ++ rest) =
  read_shapes (mkSeen (ps ++ map (fun w => cr_position (exported_vertex (oo_units o) (bl_translation b) (w_vertex w))) ws) ts ns n m g) rest.
Proof.
  induction ws as [|w ws IH]; intros; [cbn [map app]; rewrite app_nil_r; reflexivity|]. cbn [map app].
  change (position_line o b w) with (let p := cr_position (exported_vertex (oo_units o) (bl_translation b) (w_vertex w)) in OVertex (fst (fst p)) (snd (fst p)) (snd p)). cbv zeta. cbn [read_shapes so_positions so_textures so_normals so_object so_material so_smooth].
  rewrite IH, <- app_assoc. reflexivity.
Qed.
Lemma read_textures b ws : forall rest ps ts ns n m g, read_shapes (mkSeen ps ts ns n m g) (map texture_line ws ++ rest) =
  read_shapes (mkSeen ps (ts ++ map (fun w => cr_texture (exported_vertex (oo_units o) (bl_translation b) (w_vertex w))) ws) ns n m g) rest.
Proof.
  induction ws as [|w ws IH]; intros; [cbn [map app]; rewrite app_nil_r; reflexivity|]. cbn [map app].
  change (texture_line w) with (let p := cr_texture (exported_vertex (oo_units o) (bl_translation b) (w_vertex w)) in OTexture (fst p) (snd p)). cbv zeta. cbn [read_shapes so_positions so_textures so_normals so_object so_material so_smooth].
  rewrite IH, <- app_assoc. reflexivity.
Qed.
Lemma read_normals b ws : forall rest ps ts ns n m g, read_shapes (mkSeen ps ts ns n m g) (map normal_line ws ++ rest) =
  read_shapes (mkSeen ps ts (ns ++ map (fun w => cr_normal (exported_vertex (oo_units o) (bl_translation b) (w_vertex w))) ws) n m g) rest.
Proof.
  induction ws as [|w ws IH]; intros; [cbn [map app]; rewrite app_nil_r; reflexivity|]. cbn [map app].
  change (normal_line w) with (let p := cr_normal (exported_vertex (oo_units o) (bl_translation b) (w_vertex w)) in ONormal (fst (fst p)) (snd (fst p)) (snd p)). cbv zeta. cbn [read_shapes so_positions so_textures so_normals so_object so_material so_smooth].
  rewrite IH, <- app_assoc. reflexivity.
Qed.

Lemma numbered_at {A B} (f : A -> B) before ws k x : 0 <= k -> nth_error ws (Z.to_nat k) = Some x -> numbered (before ++ map f ws) (k + 1 + zlen before) = Some (f x).
Proof.
  intros K H. unfold numbered, zlen. replace (1 <=? k + 1 + Z.of_nat (List.length before)) with true by lia. rewrite nth_error_app2 by lia.
  replace (Z.to_nat (k + 1 + Z.of_nat (List.length before) - 1) - List.length before)%nat with (Z.to_nat k) by lia. apply map_nth_error, H.
Qed.
Lemma corner_plain checked offset i n : 0 <= offset -> 0 <= i < n -> offset + n < 4294967296 -> corner_of checked offset i = Ok (i + 1 + offset).
Proof. intros. unfold corner_of. rewrite Z.mod_small by lia. replace (i + 1 + offset <? 4294967296) with true by lia. reflexivity. Qed.
Lemma in_list {A} (l : list A) k : 0 <= k <= zlen l - 1 -> exists x, nth_error l (Z.to_nat k) = Some x.
Proof. intros K. unfold zlen in K. destruct (nth_error l (Z.to_nat k)) as [x|] eqn:E; [eauto|]. apply nth_error_None in E. lia. Qed.

Lemma faces_total checked offset n fs : 0 <= offset -> offset + n < 4294967296 -> Forall (face_within 0 (n - 1)) fs -> exists ls, map_res (face_line checked offset) fs = Ok ls.
Proof.
  intros O N. induction fs as [|f fs IH]; intros H; [eexists; reflexivity|]. apply Forall_cons_iff in H. destruct H as [(A & B & C) H]. destruct (IH H) as (ls & E).
  cbn [map_res]. unfold face_line at 1. rewrite !(corner_plain checked offset _ n) by lia. cbn [rbind]. rewrite E. eexists. reflexivity.
Qed.

Lemma read_faces checked b before tb nb offset name material smooth :
  offset = zlen before -> zlen tb = offset -> zlen nb = offset -> offset + zlen (bl_vertices b) < 4294967296 ->
  let ex := fun w => exported_vertex (oo_units o) (bl_translation b) (w_vertex w) in
  let s := mkSeen (before ++ map (fun w => cr_position (ex w)) (bl_vertices b)) (tb ++ map (fun w => cr_texture (ex w)) (bl_vertices b)) (nb ++ map (fun w => cr_normal (ex w)) (bl_vertices b)) name material smooth in
  name = bl_name b -> forall fs lines, Forall (face_within 0 (zlen (bl_vertices b) - 1)) fs -> map_res (face_line checked offset) fs = Ok lines ->
  exists shapes, Forall2 (shows (oo_units o) b material) fs shapes /\ Forall (fun x => sh_smooth x = smooth) shapes /\
    forall rest others, read_shapes s rest = Some others -> read_shapes s (lines ++ rest) = Some (shapes ++ others).
Proof.
  intros O TB NB L ex s NM. induction fs as [|f fs IH]; intros lines H E.
  - injection E as <-. exists []. split; [constructor|]. split; [constructor|]. intros rest others R. exact R.
  - apply Forall_cons_iff in H. destruct H as [(A & B & C) H]. cbn [map_res] in E. assert (O0 : 0 <= offset) by (subst; unfold zlen; lia).
    assert (FL : face_line checked offset f = Ok (let a := f_2 f + 1 + offset in let b := f_1 f + 1 + offset in let c := f_0 f + 1 + offset in OFace [(a, Some a, Some a); (b, Some b, Some b); (c, Some c, Some c)])).
    { unfold face_line. rewrite !(corner_plain checked offset _ (zlen (bl_vertices b))) by lia. reflexivity. }
    rewrite FL in E. cbn [rbind] in E. destruct (map_res (face_line checked offset) fs) as [ls|e] eqn:E1; cbn [rbind] in E; [|discriminate]. injection E as <-.
    destruct (IH ls H eq_refl) as (shapes & S1 & S2 & S3).
    destruct (in_list _ _ A) as (v0 & V0). destruct (in_list _ _ B) as (v1 & V1). destruct (in_list _ _ C) as (v2 & V2).
    exists (mkShape name material smooth [ex v2; ex v1; ex v0] :: shapes).
    split. { constructor; [|exact S1]. split; [exact NM|]. split; [reflexivity|]. exists v0, v1, v2. repeat split; assumption. }
    split; [constructor; [reflexivity|exact S2]|]. intros rest others R. cbn [app read_shapes].
    assert (RC : forall k w, 0 <= k -> nth_error (bl_vertices b) (Z.to_nat k) = Some w -> read_corner s (k + 1 + offset, Some (k + 1 + offset), Some (k + 1 + offset)) = Some (ex w)).
    { intros k w K W. unfold read_corner, s. cbn [so_positions so_textures so_normals]. rewrite O at 1. rewrite (numbered_at _ before _ k w K W). rewrite <- TB at 1. rewrite (numbered_at _ tb _ k w K W).
      rewrite <- NB. rewrite (numbered_at _ nb _ k w K W). destruct (ex w). reflexivity. }
    cbn [map]. rewrite (RC (f_2 f) v2), (RC (f_1 f) v1), (RC (f_0 f) v0) by (lia || assumption). cbn [all_some option_map]. rewrite (S3 rest others R). reflexivity.
Qed.

Lemma read_block checked b before tb nb name material smooth lines :
  zlen tb = zlen before -> zlen nb = zlen before -> zlen before + zlen (bl_vertices b) < 4294967296 -> in_range b -> map_res (face_line checked (zlen before)) (bl_faces b) = Ok lines ->
  let ex := fun w => exported_vertex (oo_units o) (bl_translation b) (w_vertex w) in
  let material' := match bl_material b with Some m => Some (exported_material (et_sanitize T) (oo_extract_textures o) m (bl_texture b)) | None => material end in
  let smooth' := if bl_smoothing b then true else smooth in
  let s' := mkSeen (before ++ map (fun w => cr_position (ex w)) (bl_vertices b)) (tb ++ map (fun w => cr_texture (ex w)) (bl_vertices b)) (nb ++ map (fun w => cr_normal (ex w)) (bl_vertices b)) (bl_name b) material' smooth' in
  exists shapes, Forall2 (shows (oo_units o) b material') (bl_faces b) shapes /\ Forall (fun x => sh_smooth x = smooth') shapes /\
    forall rest others, read_shapes s' rest = Some others -> read_shapes (mkSeen before tb nb name material smooth) (block_lines b lines ++ rest) = Some (shapes ++ others).
Proof.
  intros TB NB L R E ex material' smooth' s'. destruct (read_faces checked b before tb nb (zlen before) (bl_name b) material' smooth' eq_refl TB NB L eq_refl (bl_faces b) lines R E) as (shapes & S1 & S2 & S3).
  exists shapes. split; [exact S1|]. split; [exact S2|]. intros rest others O. unfold block_lines. rewrite <- !app_assoc. cbn [app read_shapes so_positions so_textures so_normals so_object so_material so_smooth].
  rewrite read_positions, (read_textures b), (read_normals b). rewrite <- (S3 rest others O).
  unfold use_lines, material', smooth'. destruct (bl_material b) as [m|]; [rewrite material_name_eq|]; destruct (bl_smoothing b); reflexivity.
Qed.

Lemma count_cons b bs : vertex_count (b :: bs) = zlen (bl_vertices b) + vertex_count bs.
Proof. reflexivity. Qed.
Lemma count_least bs : 0 <= vertex_count bs.
Proof. induction bs as [|b bs IH]; [reflexivity|rewrite count_cons; unfold zlen; lia]. Qed.

Lemma blocks_shown checked bs : forall s s' before tb nb name material smooth, write_blocks T v o checked bs s = Ok s' -> Forall in_range bs ->
  ws_face_offset s = zlen before -> zlen tb = zlen before -> zlen nb = zlen before -> zlen before + vertex_count (filter drawn bs) < 4294967296 ->
  exists lines shapes, ws_obj s' = ws_obj s ++ lines /\ read_shapes (mkSeen before tb nb name material smooth) lines = Some shapes /\ shown (et_sanitize T) o material (filter drawn bs) shapes /\
    (smooth = true \/ match filter drawn bs with b :: _ => bl_smoothing b = true | [] => True end -> Forall (fun x => sh_smooth x = true) shapes).
Proof.
  induction bs as [|b bs IH]; intros s s' before tb nb name material smooth W R O TB NB L.
  - injection W as <-. exists [], []. rewrite app_nil_r. repeat split. intros _. constructor.
  - cbn [write_blocks] in W. apply Forall_cons_iff in R. destruct R as [Rb R]. cbn [filter] in *. destruct (drawn b) eqn:D.
    + destruct (write_block T v o checked b s) as [s1|e] eqn:W1; cbn [rbind] in W; [|discriminate]. destruct (block_written _ _ _ _ D W1) as (faces & F & OB & OF).
      rewrite count_cons in L. pose proof (count_least (filter drawn bs)) as CL. rewrite O in F.
      destruct (read_block checked b before tb nb name material smooth faces TB NB ltac:(lia) Rb F) as (shapes & S1 & S2 & S3).
      set (ex := fun w => exported_vertex (oo_units o) (bl_translation b) (w_vertex w)) in *.
      assert (LM : forall A (g : wrapper -> A) l, zlen (l ++ map g (bl_vertices b)) = zlen l + zlen (bl_vertices b)) by (intros; unfold zlen; rewrite app_length, map_length; lia).
      edestruct (IH s1 s' (before ++ map (fun w => cr_position (ex w)) (bl_vertices b)) (tb ++ map (fun w => cr_texture (ex w)) (bl_vertices b)) (nb ++ map (fun w => cr_normal (ex w)) (bl_vertices b)))
        as (lines & others & O1 & O2 & O3 & O4); [exact W|exact R| | | | |].
      * rewrite OF, LM, O. assert (0 <= zlen before /\ 0 <= zlen (bl_vertices b)) by (unfold zlen; lia). rewrite Z.mod_small by lia. lia.
      * rewrite !LM. lia.
      * rewrite !LM. lia.
      * rewrite LM. lia.
      * exists (block_lines b faces ++ lines), (shapes ++ others). split; [rewrite O1, OB, <- app_assoc; reflexivity|]. split; [apply S3; exact O2|]. split.
        { cbn [shown]. exists shapes, others. split; [reflexivity|]. split; [exact S1|exact O3]. }
        intros SM. assert (ST : (if bl_smoothing b then true else smooth) = true) by (destruct SM as [->| ->]; [destruct (bl_smoothing b)|]; reflexivity).
        apply Forall_app. split; [eapply Forall_impl; [|exact S2]; cbv beta; intros x ->; exact ST|]. apply O4. left. exact ST.
    + assert (E : write_block T v o checked b s = Ok s) by (unfold write_block; rewrite drawn_empty, D; reflexivity). rewrite E in W. cbn [rbind] in W.
      exact (IH s s' before tb nb name material smooth W R O TB NB L).
Qed.
End Lines.

(** ** The material file *)
Lemma read_mtl_app l n body : Forall (fun x => match x with MNew _ => False | _ => True end) body -> read_mtl_file (l ++ MNew n :: body) = read_mtl_file l ++ [(n, body)].
Proof.
  intros B. induction l as [|x l IH].
  - cbn [app read_mtl_file]. assert (U : up_to_next body = body) by (clear n; induction body as [|y r IH]; [reflexivity|]; apply Forall_cons_iff in B; destruct B as [Y B]; destruct y; try contradiction; cbn [up_to_next]; rewrite IH by exact B; reflexivity).
    rewrite U. f_equal. clear U. induction body as [|y r IH]; [reflexivity|]. apply Forall_cons_iff in B. destruct B as [Y B]. destruct y; try contradiction; cbn [read_mtl_file]; apply IH; exact B.
  - assert (U : forall l, up_to_next (l ++ MNew n :: body) = up_to_next l).
    { clear l IH x. induction l as [|y l IH]; [reflexivity|]. cbn [app up_to_next]. destruct y; rewrite ?IH; reflexivity. }
    cbn [app read_mtl_file]. destruct x; rewrite IH, ?U; reflexivity.
Qed.

Section Materials.
Variables (T : export_tools) (v : VPX) (o : ObjExportOptions).
Notation name_of := (exported_material (et_sanitize T) (oo_extract_textures o)).

Definition file_lines (image : option rstring) : list mtl_line :=
  match image with Some f => [MMapDiffuse (lit "images/" ++ f); MMapAmbient (lit "images/" ++ f)] | None => [] end.
Lemma find_first {A} (name_of : A -> rstring) name l : name <> [] -> match find (fun m => eq_ignore_ascii_case (name_of m) name) l with
  | Some x => first_named name_of name l x | None => none_named name_of name l end.
Proof.
  intros N. induction l as [|y l IH]; [right; constructor|]. cbn [find]. destruct (eq_ignore_ascii_case (name_of y) name) eqn:E.
  - split; [exact N|]. exists [], l. repeat split; [exact E|constructor].
  - destruct (find _ l) as [x|].
    + destruct IH as (_ & a & c & -> & X & F). split; [exact N|]. exists (y :: a), c. repeat split; [exact X|constructor; assumption].
    + destruct IH as [->|F]; [contradiction|]. right. constructor; assumption.
Qed.
Lemma block_of n m image : exists lines, mtl_block v n m image = MNew n :: lines ++ file_lines image /\ material_lines v m lines /\ Forall (fun x => match x with MNew _ => False | _ => True end) (lines ++ file_lines image).
Proof.
  assert (X : exists lines, mtl_block v n m image = MNew n :: lines ++ file_lines image /\ material_lines v m lines /\ Forall (fun x => match x with MNew _ => False | _ => True end) lines).
  2:{ destruct X as (l & A & B & C). exists l. split; [exact A|]. split; [exact B|]. apply Forall_app. split; [exact C|]. destruct image; repeat constructor. }
  unfold mtl_block, material_view_by_name. destruct m as [|c m].
  - cbn [is_empty]. eexists. split; [reflexivity|]. split; [apply No_material; left; reflexivity|]. repeat constructor.
  - cbn [is_empty]. assert (N : c :: m <> []) by discriminate. set (name := c :: m) in *. clearbody name. cbv zeta. pose proof (find_first sm_name name (gt_materials_old (gd_tail (vpx_gamedata v))) N) as FO.
    assert (X : match (match gt_materials (gd_tail (vpx_gamedata v)) with Some l => find (fun m => eq_ignore_ascii_case (Material_name m) name) l | None => None end) with
                | Some x => first_named Material_name name (new_materials v) x | None => none_named Material_name name (new_materials v) end).
    { unfold new_materials. destruct (gt_materials (gd_tail (vpx_gamedata v))) as [l|]; [apply find_first, N|right; constructor]. }
    replace (match gt_materials (gd_tail (vpx_gamedata v)) with
      | None => option_map view_of_old (find (fun m0 => eq_ignore_ascii_case (sm_name m0) name) (gt_materials_old (gd_tail (vpx_gamedata v))))
      | Some l => match find (fun m0 => eq_ignore_ascii_case (Material_name m0) name) l with Some m0 => Some (view_of m0) | None => option_map view_of_old (find (fun m0 => eq_ignore_ascii_case (sm_name m0) name) (gt_materials_old (gd_tail (vpx_gamedata v)))) end
      end) with (match (match gt_materials (gd_tail (vpx_gamedata v)) with Some l => find (fun m => eq_ignore_ascii_case (Material_name m) name) l | None => None end) with
        | Some m0 => Some (view_of m0) | None => option_map view_of_old (find (fun m0 => eq_ignore_ascii_case (sm_name m0) name) (gt_materials_old (gd_tail (vpx_gamedata v)))) end)
      by (destruct (gt_materials (gd_tail (vpx_gamedata v))); reflexivity).
    destruct (match gt_materials (gd_tail (vpx_gamedata v)) with Some l => find (fun m => eq_ignore_ascii_case (Material_name m) name) l | None => None end) as [x|].
    + eexists. split; [|split; [apply New_material; exact X|repeat constructor]]. unfold view_of. cbn [mv_base mv_glossy mv_is_metal mv_opacity mv_opacity_active].
      destruct (Material_type_ x); reflexivity.
    + destruct (find _ (gt_materials_old (gd_tail (vpx_gamedata v)))) as [y|]; cbn [option_map].
      * eexists. split; [|split; [apply Old_material; [exact X|exact FO]|repeat constructor]]. unfold view_of_old. cbn [mv_base mv_glossy mv_is_metal mv_opacity mv_opacity_active].
        destruct (sm_is_metal y); reflexivity.
      * eexists. split; [|split; [apply No_material; [exact X|exact FO]|repeat constructor]]. reflexivity.
Qed.

(** Names of images *)
Lemma lookup_in k l x : lookup k l = Some x -> In (k, x) l.
Proof.
  unfold lookup. destruct (find _ l) as [[a b]|] eqn:F; [|discriminate]. intros [= <-]. apply find_some in F. destruct F as [I E]. cbn [fst] in E. apply rstring_eqb_eq in E. subst. exact I.
Qed.
Lemma lookup_put k n x l : lookup k ((n, x) :: l) = if rstring_eqb n k then Some x else lookup k l.
Proof. unfold lookup. cbn [find fst]. destruct (rstring_eqb n k); reflexivity. Qed.
Lemma free_name_ok fuel : forall used base ext c n c', free_name T fuel used base ext c = Ok (n, c') -> ~ In (et_lower T n) used.
Proof.
  induction fuel as [|fuel IH]; intros used base ext c n c'; cbn [free_name]; [discriminate|]. generalize (base ++ lit "_dedup" ++ dec_text (c + 1) ++ lit "." ++ ext). intros nm. destruct (contains used _) eqn:E; [apply IH|]. intros [= <- <-] K. apply contains_iff in K. rewrite K in E. discriminate.
Qed.
Lemma name_ok s n e f c : sanitized_image_filename T s n e = Ok (f, c) -> ~ In (et_lower T f) (ws_used_lower_filenames s).
Proof.
  unfold sanitized_image_filename. cbv zeta. generalize (et_sanitize T n ++ lit "." ++ e). intros nm. destruct (contains (ws_used_lower_filenames s) (et_lower T nm)) eqn:E; [apply free_name_ok|].
  intros [= <- <-] K. apply contains_iff in K. rewrite K in E. discriminate.
Qed.

Record images_ok (s : WriterState) : Prop := mkImagesOk {
  io_files : forall n f, lookup n (ws_image_filenames s) = Some f -> exists i d, first_named im_name n (vpx_images v) i /\ In (f, d) (ws_images s) /\ image_file (et_lzw_decode T) (et_bmp T) i d;
  io_used : ws_used_lower_filenames s = rev (map (fun e => et_lower T (fst e)) (ws_images s));
  io_distinct : NoDup (map (fun e => et_lower T (fst e)) (ws_images s));
  io_known : forall f d, In (f, d) (ws_images s) -> exists n, lookup n (ws_image_filenames s) = Some f }.

Definition grows (s s' : WriterState) : Prop := forall n f, lookup n (ws_image_filenames s) = Some f -> lookup n (ws_image_filenames s') = Some f.

Lemma image_by_name_first n i : image_by_name v n = Some i -> first_named im_name n (vpx_images v) i.
Proof.
  unfold image_by_name. destruct n as [|c n]; [discriminate|]. cbn [is_empty]. intros E. pose proof (find_first im_name (c :: n) (vpx_images v) ltac:(discriminate)) as F. rewrite E in F. exact F.
Qed.
Lemma image_by_name_none n : image_by_name v n = None -> none_named im_name n (vpx_images v).
Proof.
  unfold image_by_name. destruct n as [|c n]; [left; reflexivity|]. cbn [is_empty]. intros E. pose proof (find_first im_name (c :: n) (vpx_images v) ltac:(discriminate)) as F. rewrite E in F. exact F.
Qed.

Lemma ensure_ok n s p s' : images_ok s -> ensure_image_written T v n s = Ok (p, s') -> images_ok s' /\ grows s s' /\ lookup n (ws_image_filenames s') = p /\
  (forall k, k <> n -> lookup k (ws_image_filenames s') = lookup k (ws_image_filenames s)) /\
  (p = None -> none_named im_name n (vpx_images v) \/ exists i, first_named im_name n (vpx_images v) i /\ ~ has_data i) /\
  (forall e, In e (ws_images s) -> In e (ws_images s')).
Proof.
  intros I. unfold ensure_image_written. destruct (lookup n (ws_image_filenames s)) as [f|] eqn:L; [intros [= <- <-]; unfold grows; auto 8; split; [exact I|]; repeat split; auto; discriminate|].
  destruct (image_by_name v n) as [i|] eqn:B; [|intros [= <- <-]; split; [exact I|]; split; [unfold grows; auto|]; repeat split; auto; intros _; left; apply image_by_name_none, B].
  apply image_by_name_first in B.
  assert (G : forall d, image_file (et_lzw_decode T) (et_bmp T) i d -> forall f c, sanitized_image_filename T s (im_name i) (ImageData_ext i) = Ok (f, c) ->
            let s' := put_image T n f c d s in images_ok s' /\ grows s s' /\ lookup n (ws_image_filenames s') = Some f /\
            (forall k, k <> n -> lookup k (ws_image_filenames s') = lookup k (ws_image_filenames s)) /\
            (Some f = None -> none_named im_name n (vpx_images v) \/ exists i, first_named im_name n (vpx_images v) i /\ ~ has_data i) /\
            (forall e, In e (ws_images s) -> In e (ws_images s'))).
  { intros d D f c F s2. apply name_ok in F. destruct I as [I1 I2 I3 I4]. unfold s2, put_image, grows. cbn [ws_image_filenames ws_images].
    assert (LN : forall k, k <> n -> lookup k ((n, f) :: ws_image_filenames s) = lookup k (ws_image_filenames s)).
    { intros k K. rewrite lookup_put. destruct (rstring_eqb n k) eqn:R; [apply rstring_eqb_eq in R; congruence|reflexivity]. }
    assert (LL : lookup n ((n, f) :: ws_image_filenames s) = Some f) by (rewrite lookup_put; replace (rstring_eqb n n) with true by (symmetry; apply rstring_eqb_eq; reflexivity); reflexivity).
    assert (GR : forall k g, lookup k (ws_image_filenames s) = Some g -> lookup k ((n, f) :: ws_image_filenames s) = Some g) by (intros k g K; rewrite LN; [exact K|congruence]).
    split; [|split; [exact GR|]; split; [exact LL|]; split; [exact LN|]; split; [discriminate|intros e E; apply in_or_app; left; exact E]].
    constructor; cbn [ws_image_filenames ws_images ws_used_lower_filenames].
    - intros k g K. rewrite lookup_put in K. destruct (rstring_eqb n k) eqn:R.
      + apply rstring_eqb_eq in R. subst k. injection K as <-. exists i, d. split; [exact B|]. split; [apply in_or_app; right; left; reflexivity|exact D].
      + destruct (I1 k g K) as (i' & d' & A1 & A2 & A3). exists i', d'. split; [exact A1|]. split; [apply in_or_app; left; exact A2|exact A3].
    - rewrite map_app, rev_app_distr, I2. reflexivity.
    - rewrite map_app. cbn [map fst]. rewrite I2 in F. rewrite <- in_rev in F. apply NoDup_rev in I3. rewrite <- (rev_involutive (_ ++ _)). apply NoDup_rev. rewrite rev_app_distr. cbn [rev app]. constructor; [rewrite <- in_rev; exact F|exact I3].
    - intros g e E. apply in_app_or in E. destruct E as [E|[E|[]]]; [destruct (I4 g e E) as (k & K); exists k; apply GR, K|]. injection E as <- <-. exists n. exact LL. }
  unfold image_file in G. destruct (im_jpeg i) as [j|] eqn:J, (im_bits i) as [b|] eqn:Bi.
  - destruct (sanitized_image_filename T s (im_name i) (ImageData_ext i)) as [[f c]|e] eqn:F; cbn [rbind]; [|discriminate]. intros [= <- <-]. exact (G _ eq_refl f c eq_refl).
  - destruct (sanitized_image_filename T s (im_name i) (ImageData_ext i)) as [[f c]|e] eqn:F; cbn [rbind]; [|discriminate]. intros [= <- <-]. exact (G _ eq_refl f c eq_refl).
  - destruct (sanitized_image_filename T s (im_name i) (ImageData_ext i)) as [[f c]|e] eqn:F; cbn [rbind]; [|discriminate].
    destruct (write_image_bmp _ _ _ _ _) as [d|e] eqn:W; cbn [rbind]; [|discriminate]. intros [= <- <-]. exact (G _ eq_refl f c eq_refl).
  - intros [= <- <-]. split; [exact I|]. split; [unfold grows; auto|]. repeat split; auto. intros _. right. exists i. split; [exact B|]. unfold has_data. rewrite J, Bi. intros [[]|[]]; reflexivity.
Qed.

(** The material file after some parts *)
Definition pair : Type := (rstring * option rstring)%type.
Definition text_of (t : option rstring) : rstring := match t with Some t => t | None => [] end.
Definition path_in (s : WriterState) (t : option rstring) : option rstring := match t with Some t => if oo_extract_textures o then lookup t (ws_image_filenames s) else None | None => None end.
Definition section_of (s : WriterState) (p : pair) : rstring * list mtl_line := let n := name_of (fst p) (snd p) in (n, tl (mtl_block v n (fst p) (path_in s (snd p)))).
Definition resolved (s : WriterState) (t : option rstring) : Prop := forall x, t = Some x -> oo_extract_textures o = true -> lookup x (ws_image_filenames s) = None ->
  none_named im_name x (vpx_images v) \/ exists i, first_named im_name x (vpx_images v) i /\ ~ has_data i.
Record materials_ok (s : WriterState) (done : list pair) : Prop := mkMaterialsOk {
  mo_images : images_ok s;
  mo_sections : forall e, In e (read_mtl_file (ws_mtl s)) <-> In e (map (section_of s) done);
  mo_seen : forall m t, In (m, t) (ws_seen_mtl_pairs s) -> exists t', text_of t' = t /\ In (m, t') done;
  mo_resolved : Forall (fun p => resolved s (snd p)) done;
  mo_asked : forall n f, lookup n (ws_image_filenames s) = Some f -> oo_extract_textures o = true /\ exists m, In (m, Some n) done }.

Lemma first_not_none {A} (g : A -> rstring) n l x : first_named g n l x -> none_named g n l -> False.
Proof.
  intros (N & a & c & -> & E & _) [->|F]; [apply N; reflexivity|]. apply Forall_app in F. destruct F as [_ F]. apply Forall_cons_iff in F. destruct F as [F _]. congruence.
Qed.
Lemma first_unique {A} (g : A -> rstring) n l x y : first_named g n l x -> first_named g n l y -> x = y.
Proof.
  intros (_ & a & c & E1 & X & F1) (_ & a' & c' & E2 & Y & F2). rewrite E1 in E2. clear E1. revert a' E2 F2. induction a as [|h a IH]; intros a' E2 F2.
  - destruct a' as [|h' a']; [injection E2 as -> _; reflexivity|]. injection E2 as <- _. apply Forall_cons_iff in F2. destruct F2 as [F2 _]. congruence.
  - destruct a' as [|h' a']; [injection E2 as <- _; apply Forall_cons_iff in F1; destruct F1 as [F1 _]; congruence|]. injection E2 as <- E2. apply Forall_cons_iff in F1, F2. apply (IH (proj2 F1) a' E2 (proj2 F2)).
Qed.
Lemma section_stable s s' p : images_ok s' -> grows s s' -> resolved s (snd p) -> section_of s' p = section_of s p.
Proof.
  intros I G R. unfold section_of. f_equal. f_equal. f_equal. unfold path_in. destruct (snd p) as [t|]; [|reflexivity]. destruct (oo_extract_textures o) eqn:X; [|reflexivity].
  destruct (lookup t (ws_image_filenames s)) as [f|] eqn:L; [apply G, L|]. destruct (lookup t (ws_image_filenames s')) as [f|] eqn:L'; [|reflexivity]. exfalso.
  destruct (io_files _ I _ _ L') as (i & d & F & _ & D). destruct (R t eq_refl X L) as [N|(i' & F' & N)]; [exact (first_not_none _ _ _ _ F N)|].
  rewrite (first_unique _ _ _ _ _ F' F) in N. apply N. unfold has_data. unfold image_file in D. destruct (im_jpeg i); [left; discriminate|]. destruct (im_bits i); [right; discriminate|contradiction].
Qed.
Lemma resolved_grows s s' t : grows s s' -> resolved s t -> resolved s' t.
Proof. intros G R x E X L. apply (R x E X). destruct (lookup x (ws_image_filenames s)) as [f|] eqn:K; [apply G in K; congruence|reflexivity]. Qed.
Lemma seen_iff m t l : seen (m, t) l = true <-> In (m, t) l.
Proof.
  unfold seen. rewrite existsb_exists. split.
  - intros ([a b] & I & E). cbn [fst snd] in E. apply andb_prop in E. destruct E as [A B]. apply rstring_eqb_eq in A, B. subst. exact I.
  - intros I. exists (m, t). split; [exact I|]. cbn [fst snd]. replace (rstring_eqb m m) with true by (symmetry; apply rstring_eqb_eq; reflexivity). apply rstring_eqb_eq. reflexivity.
Qed.

(** What a step does to the sections *)
Inductive emitted (dedup : bool) (s s' : WriterState) (m : rstring) (t : option rstring) : Prop :=
| Skipped : seen (m, text_of t) (ws_seen_mtl_pairs s) = true -> read_mtl_file (ws_mtl s') = read_mtl_file (ws_mtl s) -> ws_seen_mtl_pairs s' = ws_seen_mtl_pairs s -> emitted dedup s s' m t
| Added : seen (m, text_of t) (ws_seen_mtl_pairs s) = false -> read_mtl_file (ws_mtl s') = read_mtl_file (ws_mtl s) ++ [section_of s' (m, t)] ->
    ws_seen_mtl_pairs s' = (m, text_of t) :: ws_seen_mtl_pairs s -> emitted dedup s s' m t
| Repeated : dedup = false -> read_mtl_file (ws_mtl s') = read_mtl_file (ws_mtl s) ++ [section_of s' (m, t)] -> ws_seen_mtl_pairs s' = ws_seen_mtl_pairs s -> emitted dedup s s' m t.

Lemma emit_ok s m t n s' done : materials_ok s done -> emit_mtl_block T v o m t s = Ok (n, s') -> materials_ok s' (done ++ [(m, t)]) /\ emitted (oo_dedup_mtl_blocks o) s s' m t /\
  (oo_extract_textures o = false -> ws_images s' = ws_images s) /\ (oo_extract_textures o = false -> oo_dedup_mtl_blocks o = false -> read_mtl_file (ws_mtl s') = read_mtl_file (ws_mtl s) ++ [section_of s' (m, t)]).
Proof.
  intros M. unfold emit_mtl_block. fold (map_path_of T v o t s). destruct (map_path_of T v o t s) as [[p s1]|e] eqn:E; cbn [rbind]; [|discriminate].
  destruct (path_keeps _ _ _ _ _ _ _ E) as (_ & KM & _ & KS). rewrite material_name_eq.
  assert (P : images_ok s1 /\ grows s s1 /\ path_in s1 t = p /\ resolved s1 t /\ (forall e, In e (ws_images s) -> In e (ws_images s1)) /\ (oo_extract_textures o = false -> ws_images s1 = ws_images s) /\
              (forall k f, lookup k (ws_image_filenames s1) = Some f -> lookup k (ws_image_filenames s) = Some f \/ oo_extract_textures o = true /\ t = Some k)).
  { destruct M as [M1 _ _ _ _]. unfold map_path_of in E. destruct t as [t|].
    - destruct (oo_extract_textures o) eqn:X.
      + destruct (ensure_ok _ _ _ _ M1 E) as (A & B & C & O & D & F). split; [exact A|]. split; [exact B|]. split; [unfold path_in; rewrite X; exact C|]. split; [|split; [exact F|split; [discriminate|]]].
        * intros x Ex _ L. injection Ex as <-. apply D. rewrite <- C. exact L.
        * intros k f K. destruct (list_eq_dec N.eq_dec k t) as [->|Nk]; [right; auto|left; rewrite <- O by exact Nk; exact K].
      + injection E as <- <-. split; [exact M1|]. split; [intros ? ? ?; assumption|]. split; [unfold path_in; rewrite X; reflexivity|]. split; [intros x _ X'; congruence|]. repeat split; auto.
    - injection E as <- <-. split; [exact M1|]. split; [intros ? ? ?; assumption|]. split; [reflexivity|]. split; [discriminate|]. repeat split; auto. }
  destruct P as (PI & PG & PP & PR & PF & PX & PA). destruct M as [M1 M2 M3 M4 M5].
  set (name := name_of m t) in *.
  assert (ST : forall q, In q done -> section_of s1 q = section_of s q) by (intros q Q; apply section_stable; [exact PI|exact PG|exact (proj1 (Forall_forall _ _) M4 q Q)]).
  assert (MS : map (section_of s1) done = map (section_of s) done) by (apply map_ext_in; exact ST).
  assert (R4 : Forall (fun q => resolved s1 (snd q)) (done ++ [(m, t)])).
  { apply Forall_app. split; [eapply Forall_impl; [|exact M4]; cbv beta; intros q; apply resolved_grows, PG|constructor; [exact PR|constructor]]. }
  assert (A5 : forall k f, lookup k (ws_image_filenames s1) = Some f -> oo_extract_textures o = true /\ exists m', In (m', Some k) (done ++ [(m, t)])).
  { intros k f K. destruct (PA k f K) as [K'|[X ->]]; [destruct (M5 k f K') as (X & m' & I); split; [exact X|exists m'; apply in_or_app; left; exact I]|].
    split; [exact X|exists m; apply in_or_app; right; left; reflexivity]. }
  assert (SAME : forall s2, ws_image_filenames s2 = ws_image_filenames s1 -> forall q, section_of s2 q = section_of s1 q).
  { intros s2 E2 q. unfold section_of, path_in. rewrite E2. reflexivity. }
  assert (IOK : forall s2, ws_image_filenames s2 = ws_image_filenames s1 -> ws_used_lower_filenames s2 = ws_used_lower_filenames s1 -> ws_images s2 = ws_images s1 -> images_ok s2).
  { intros s2 A B C. destruct PI as [I1 I2 I3 I4]. constructor; rewrite ?A, ?B, ?C; assumption. }
  assert (RB : forall l, read_mtl_file (l ++ mtl_block v name m p) = read_mtl_file l ++ [section_of s1 (m, t)]).
  { intros l. destruct (block_of name m p) as (lines & B & _ & F). rewrite B, read_mtl_app by exact F. unfold section_of. cbn [fst snd]. fold name. rewrite PP, B. reflexivity. }
  assert (NEW : forall s2, ws_image_filenames s2 = ws_image_filenames s1 -> ws_used_lower_filenames s2 = ws_used_lower_filenames s1 -> ws_images s2 = ws_images s1 ->
            ws_mtl s2 = ws_mtl s1 ++ mtl_block v name m p -> (ws_seen_mtl_pairs s2 = (m, text_of t) :: ws_seen_mtl_pairs s \/ ws_seen_mtl_pairs s2 = ws_seen_mtl_pairs s) ->
            materials_ok s2 (done ++ [(m, t)])).
  { intros s2 A B C D S. constructor.
    - apply IOK; assumption.
    - intros e. rewrite D, RB, KM, (map_ext _ _ (SAME s2 A)), map_app, MS. cbn [map]. split; intros I; apply in_app_or in I; apply in_or_app; (destruct I as [I|I]; [left; apply M2; exact I|right; exact I]).
    - intros m' t' I. assert (J : (m, text_of t) = (m', t') \/ In (m', t') (ws_seen_mtl_pairs s)) by (destruct S as [S|S]; rewrite S in I; [exact I|right; exact I]).
      destruct J as [[= <- <-]|J]; [exists t; split; [reflexivity|apply in_or_app; right; left; reflexivity]|]. destruct (M3 _ _ J) as (t'' & X & Y). exists t''. split; [exact X|apply in_or_app; left; exact Y].
    - eapply Forall_impl; [|exact R4]. cbv beta. unfold resolved. rewrite A. auto.
    - rewrite A. exact A5. }
  fold (text_of t). rewrite KS.
  destruct (oo_dedup_mtl_blocks o || oo_extract_textures o && match p with Some _ => true | None => false end) eqn:DD.
  - destruct (seen (m, text_of t) (ws_seen_mtl_pairs s)) eqn:S.
    + intros [= <- <-]. apply seen_iff in S. destruct (M3 _ _ S) as (t' & TE & IN). split; [|split; [apply Skipped; [apply seen_iff, S|rewrite KM; reflexivity|exact KS]|split; [exact PX|]]].
      * constructor.
        -- exact PI.
        -- intros e. rewrite KM, map_app, MS, M2. cbn [map]. split; [intros I; apply in_or_app; left; exact I|]. intros I. apply in_app_or in I. destruct I as [I|[<-|[]]]; [exact I|].
           apply in_map_iff. exists (m, t'). split; [|exact IN]. rewrite <- (ST _ IN). unfold section_of. cbn [fst snd].
           destruct t as [[|c t]|], t' as [[|c' t']|]; cbn [text_of] in TE; try discriminate; try reflexivity.
           ++ unfold exported_material, path_in. destruct (oo_extract_textures o); [|reflexivity]. destruct (lookup [] (ws_image_filenames s1)) as [f|] eqn:L; [|reflexivity].
              destruct (io_files _ PI _ _ L) as (i & d & (N & _) & _). contradiction.
           ++ injection TE as -> ->. reflexivity.
           ++ unfold exported_material, path_in. destruct (oo_extract_textures o); [|reflexivity]. destruct (lookup [] (ws_image_filenames s1)) as [f|] eqn:L; [|reflexivity].
              destruct (io_files _ PI _ _ L) as (i & d & (N & _) & _). contradiction.
        -- rewrite KS. intros m' x I. destruct (M3 _ _ I) as (t'' & X & Y). exists t''. split; [exact X|apply in_or_app; left; exact Y].
        -- exact R4.
        -- exact A5.
      * intros X Y. rewrite X, Y in DD. discriminate.
    + intros [= <- <-]. split; [apply NEW; try reflexivity; left; cbn [put_mtl put_seen ws_seen_mtl_pairs]; rewrite KS; reflexivity|].
      assert (RD : read_mtl_file (ws_mtl (put_mtl (mtl_block v name m p) (put_seen (m, text_of t) s1))) = read_mtl_file (ws_mtl s) ++ [section_of (put_mtl (mtl_block v name m p) (put_seen (m, text_of t) s1)) (m, t)]).
      { cbn [put_mtl put_seen ws_mtl]. rewrite RB, KM. reflexivity. }
      split; [apply Added; [exact S|exact RD|cbn [put_mtl put_seen ws_seen_mtl_pairs]; rewrite KS; reflexivity]|]. split; [exact PX|]. intros _ _. exact RD.
  - intros [= <- <-]. split; [apply NEW; try reflexivity; right; exact KS|].
    assert (RD : read_mtl_file (ws_mtl (put_mtl (mtl_block v name m p) s1)) = read_mtl_file (ws_mtl s) ++ [section_of (put_mtl (mtl_block v name m p) s1) (m, t)]).
    { cbn [put_mtl ws_mtl]. rewrite RB, KM. reflexivity. }
    split; [apply Repeated; [destruct (oo_dedup_mtl_blocks o); [discriminate|reflexivity]|exact RD|exact KS]|]. split; [exact PX|]. intros _ _. exact RD.
Qed.

Definition pairs_of (b : Block) : list pair := match bl_material b with Some m => [(m, bl_texture b)] | None => [] end.
Definition once (s : WriterState) : Prop := NoDup (ws_seen_mtl_pairs s) /\
  map fst (read_mtl_file (ws_mtl s)) = rev (map (fun p => name_of (fst p) (Some (snd p))) (ws_seen_mtl_pairs s)).
Lemma name_text m t : name_of m (Some (text_of t)) = name_of m t.
Proof. destruct t; reflexivity. Qed.
Lemma once_emitted s s' m t : once s -> emitted true s s' m t -> once s'.
Proof.
  intros [N E] [_ R S|F R S|D _ _]; [split; rewrite ?S, ?R; assumption| |discriminate]. split; rewrite S.
  - constructor; [|exact N]. intros I. apply seen_iff in I. congruence.
  - rewrite R, map_app, E. cbn [map rev fst snd]. rewrite name_text. reflexivity.
Qed.

(** Two states that differ in the OBJ file only *)
Definition same_mtl (a b : WriterState) : Prop :=
  ws_image_filenames a = ws_image_filenames b /\ ws_used_lower_filenames a = ws_used_lower_filenames b /\ ws_image_dedup_counter a = ws_image_dedup_counter b /\ ws_seen_mtl_pairs a = ws_seen_mtl_pairs b /\ ws_mtl a = ws_mtl b /\ ws_images a = ws_images b.
Lemma same_ok a b done : same_mtl a b -> materials_ok a done -> materials_ok b done.
Proof.
  intros (A & B & _ & S & M & I) [M1 M2 M3 M4 M5]. constructor.
  - destruct M1 as [I1 I2 I3 I4]. constructor; rewrite <- ?A, <- ?B, <- ?I; assumption.
  - rewrite <- M. intros e. rewrite M2. rewrite (map_ext (section_of b) (section_of a)); [reflexivity|]. intros q. unfold section_of, path_in. rewrite A. reflexivity.
  - rewrite <- S. exact M3.
  - eapply Forall_impl; [|exact M4]. cbv beta. unfold resolved. rewrite A. auto.
  - rewrite <- A. exact M5.
Qed.
Lemma block_mtl checked b s s' : drawn b = true -> write_block T v o checked b s = Ok s' ->
  match bl_material b with
  | None => same_mtl s s'
  | Some m => exists s1 n s2, same_mtl s s1 /\ emit_mtl_block T v o m (bl_texture b) s1 = Ok (n, s2) /\ same_mtl s2 s'
  end.
Proof.
  intros D. unfold write_block. rewrite drawn_empty, D. cbn [negb].
  set (head := [OObject (bl_name b)] ++ _). clearbody head. cbv zeta. destruct (bl_material b) as [m|].
  - destruct (emit_mtl_block T v o m (bl_texture b) (put_obj head s)) as [[n s2]|e] eqn:E; cbn [rbind]; [|discriminate]. intros H. exists (put_obj head s), n, s2.
    split; [repeat split|]. split; [exact E|]. destruct (bl_smoothing b); (destruct (map_res _ _); cbn [rbind] in H; [|discriminate]; injection H as <-; repeat split).
  - cbn [rbind]. destruct (bl_smoothing b); (destruct (map_res _ _); cbn [rbind]; [|discriminate]; intros [= <-]; repeat split).
Qed.
Lemma same_once a b : same_mtl a b -> once a -> once b.
Proof. intros (_ & _ & _ & S & M & _) [N E]. split; rewrite <- ?S, <- ?M; assumption. Qed.

Lemma blocks_ok checked bs : forall s s' done, materials_ok s done -> write_blocks T v o checked bs s = Ok s' ->
  let now := flat_map pairs_of (filter drawn bs) in
  materials_ok s' (done ++ now) /\ (oo_dedup_mtl_blocks o = true -> once s -> once s') /\ (oo_extract_textures o = false -> ws_images s' = ws_images s) /\
  (oo_extract_textures o = false -> oo_dedup_mtl_blocks o = false -> map fst (read_mtl_file (ws_mtl s')) = map fst (read_mtl_file (ws_mtl s)) ++ map (fun p => name_of (fst p) (snd p)) now).
Proof.
  induction bs as [|b bs IH]; intros s s' done M W now.
  - injection W as <-. unfold now. cbn [filter flat_map map]. rewrite !app_nil_r. auto.
  - cbn [write_blocks] in W. unfold now. clear now. cbn [filter]. destruct (drawn b) eqn:D.
    + destruct (write_block T v o checked b s) as [s1|e] eqn:W1; cbn [rbind] in W; [|discriminate]. pose proof (block_mtl _ _ _ _ D W1) as B. cbn [flat_map]. unfold pairs_of at 1 3. destruct (bl_material b) as [m|].
      * destruct B as (a & n & c & SA & E & SC). destruct (emit_ok a m (bl_texture b) n c done (same_ok _ _ _ SA M) E) as (OK & EM & EX & ER).
        destruct (IH s1 s' (done ++ [(m, bl_texture b)]) (same_ok _ _ _ SC OK) W) as (X1 & X2 & X3 & X4). rewrite <- app_assoc in X1. split; [exact X1|].
        assert (SA' := SA). assert (SC' := SC). destruct SA' as (_ & _ & _ & _ & MA & IA). destruct SC' as (_ & _ & _ & _ & MC & IC). split; [|split].
        -- intros DD O. apply X2; [exact DD|]. apply (same_once _ _ SC). rewrite DD in EM. apply (once_emitted _ _ _ _ (same_once _ _ SA O) EM).
        -- intros X. rewrite X3, <- IC, EX, IA by exact X. reflexivity.
        -- intros X Y. rewrite X4, <- MC, ER, MA, map_app, <- app_assoc by assumption. reflexivity.
      * destruct (IH s1 s' done (same_ok _ _ _ B M) W) as (X1 & X2 & X3 & X4). split; [exact X1|]. assert (B' := B). destruct B' as (_ & _ & _ & _ & MB & IB). split; [|split].
        -- intros DD O. apply X2; [exact DD|]. apply (same_once _ _ B O).
        -- intros X. rewrite X3, IB by exact X. reflexivity.
        -- intros X Y. rewrite X4, MB by assumption. reflexivity.
    + assert (E : write_block T v o checked b s = Ok s) by (unfold write_block; rewrite drawn_empty, D; reflexivity). rewrite E in W. cbn [rbind] in W.
      exact (IH s s' done M W).
Qed.

(** Nothing goes wrong *)
Definition keeps_copies (lower : rstring -> rstring) : Prop := forall base ext, exists before after, forall k, lower (base ++ lit "_dedup" ++ dec_text k ++ lit "." ++ ext) = before ++ dec_text k ++ after.
Hypothesis Hl : keeps_copies (et_lower T).
Lemma free_name_total fuel : forall used base ext c, (forall e, free_name T fuel used base ext c = Fail e -> e = OutOfFuelF /\
  forall i, (i < fuel)%nat -> In (et_lower T (base ++ lit "_dedup" ++ dec_text (c + 1 + N.of_nat i) ++ lit "." ++ ext)) used).
Proof.
  induction fuel as [|fuel IH]; intros used base ext c e; cbn [free_name].
  - intros [= <-]. split; [reflexivity|]. intros i I. lia.
  - cbv zeta. destruct (contains used (et_lower T (base ++ lit "_dedup" ++ dec_text (c + 1) ++ lit "." ++ ext))) eqn:C; [|discriminate]. intros H. destruct (IH _ _ _ _ _ H) as [-> X]. split; [reflexivity|].
    intros i I. destruct i as [|i]; [rewrite N.add_0_r; apply contains_iff, C|]. replace (c + 1 + N.of_nat (S i))%N with (c + 1 + 1 + N.of_nat i)%N by lia. apply X. lia.
Qed.
Lemma name_total s n e : exists f c, sanitized_image_filename T s n e = Ok (f, c).
Proof.
  unfold sanitized_image_filename. cbv zeta. destruct (contains _ _); [|eauto]. destruct (free_name T _ _ _ _ _) as [[f c]|x] eqn:F; [eauto|]. exfalso.
  destruct (free_name_total _ _ _ _ _ _ F) as [_ X]. set (used := ws_used_lower_filenames s) in *. set (base := et_sanitize T n) in *. set (k := ws_image_dedup_counter s) in *.
  destruct (Hl base e) as (p & q & HE). set (g := fun i => p ++ dec_text (k + 1 + N.of_nat i) ++ q).
  assert (ND : NoDup (map g (seq 0 (S (List.length used))))).
  { apply FinFun.Injective_map_NoDup; [|apply seq_NoDup]. intros a b H. unfold g in H. apply app_inv_head, app_inv_tail, dec_text_inj in H. lia. }
  assert (IN : incl (map g (seq 0 (S (List.length used)))) used).
  { intros y Hy. apply in_map_iff in Hy. destruct Hy as (i & <- & Hi). apply in_seq in Hi. unfold g. rewrite <- HE. apply X. lia. }
  pose proof (NoDup_incl_length ND IN) as L. rewrite map_length, seq_length in L. exact (Nat.nle_succ_diag_l _ L).
Qed.
Definition decodable (i : ImageData) : Prop := im_jpeg i = None -> forall b, im_bits i = Some b -> exists d, write_image_bmp (et_lzw_decode T) (et_bmp T) b (w32_to_Z (im_width i)) (w32_to_Z (im_height i)) = Ok d.
Lemma ensure_total n s : Forall decodable (vpx_images v) -> exists p s', ensure_image_written T v n s = Ok (p, s').
Proof.
  intros D. unfold ensure_image_written. destruct (lookup n (ws_image_filenames s)); [eauto|]. destruct (image_by_name v n) as [i|] eqn:B; [|eauto].
  assert (Di : decodable i) by (apply image_by_name_first in B; destruct B as (_ & a & c & E & _); rewrite E in D; apply Forall_app in D; destruct D as [_ D]; apply Forall_cons_iff in D; exact (proj1 D)).
  destruct (name_total s (im_name i) (ImageData_ext i)) as (f & c & N). unfold decodable in Di. destruct (im_jpeg i) as [j|], (im_bits i) as [b|]; try rewrite N; cbn [rbind]; eauto.
  destruct (Di eq_refl b eq_refl) as (d & ->). cbn [rbind]. eauto.
Qed.
Lemma emit_total m t s : Forall decodable (vpx_images v) -> exists n s', emit_mtl_block T v o m t s = Ok (n, s').
Proof.
  intros D. unfold emit_mtl_block. fold (map_path_of T v o t s).
  assert (P : exists p s1, map_path_of T v o t s = Ok (p, s1)) by (unfold map_path_of; destruct t as [t|]; [destruct (oo_extract_textures o); [apply ensure_total, D|]|]; eauto).
  destruct P as (p & s1 & ->). cbn [rbind]. destruct (_ || _); [destruct (seen _ _)|]; eauto.
Qed.
Lemma blocks_total checked bs : forall s, Forall decodable (vpx_images v) -> Forall in_range bs -> 0 <= ws_face_offset s -> ws_face_offset s + vertex_count (filter drawn bs) < 4294967296 ->
  exists s', write_blocks T v o checked bs s = Ok s'.
Proof.
  induction bs as [|b bs IH]; intros s D R O L; [eexists; reflexivity|]. cbn [write_blocks]. apply Forall_cons_iff in R. destruct R as [Rb R]. cbn [filter] in L. destruct (drawn b) eqn:Db.
  - rewrite count_cons in L. pose proof (count_least (filter drawn bs)) as CL. assert (LB : 0 <= zlen (bl_vertices b)) by (unfold zlen; lia).
    assert (W : exists s1, write_block T v o checked b s = Ok s1).
    { unfold write_block. rewrite drawn_empty, Db. cbn [negb]. set (head := [OObject (bl_name b)] ++ _). clearbody head. cbv zeta.
      assert (X : exists s1, match bl_material b with Some material => '(name, s) <~ emit_mtl_block T v o material (bl_texture b) (put_obj head s) ;; Ok (put_obj [OUse name] s) | None => Ok (put_obj head s) end = Ok s1 /\ ws_face_offset s1 = ws_face_offset s).
      { destruct (bl_material b) as [m|]; [|eexists; split; reflexivity]. destruct (emit_total m (bl_texture b) (put_obj head s) D) as (n & s2 & E). rewrite E. cbn [rbind]. destruct (emit_keeps _ _ _ _ _ _ _ _ E) as (_ & _ & F). eexists. split; [reflexivity|exact F]. }
      destruct X as (s1 & -> & F). cbn [rbind].
      replace (ws_face_offset (if bl_smoothing b then put_obj [OSmooth 1] s1 else s1)) with (ws_face_offset s) by (destruct (bl_smoothing b); symmetry; exact F).
      destruct (faces_total checked (ws_face_offset s) (zlen (bl_vertices b)) (bl_faces b) O ltac:(lia) Rb) as (ls & ->). cbn [rbind]. eexists. reflexivity. }
    destruct W as (s1 & W). rewrite W. cbn [rbind]. destruct (block_written _ _ _ _ _ _ _ Db W) as (_ & _ & _ & OF). rewrite Z.mod_small in OF by lia. apply IH; [exact D|exact R|lia|lia].
  - assert (E : write_block T v o checked b s = Ok s) by (unfold write_block; rewrite drawn_empty, Db; reflexivity). rewrite E. cbn [rbind]. apply IH; assumption.
Qed.
End Materials.

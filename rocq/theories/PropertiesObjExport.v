(** Properties of exporting a table to OBJ (C66). *)
From Coq Require Import Reals.
From Verif Require Import Base Text Biff Json Image Quantize ColorText Cfb JsonFloat Mesh SpecMesh Browser Common Enums Structs StructMaterial GameItem GDBounds GDScene GDPhysics GDCabinet GDDesktop GameData.
From Verif Require Import ItemWall ItemRamp ItemRubber ItemBumper ItemPlunger ItemFlipper ItemGate ItemKicker ItemSpinner ItemHitTarget ItemTrigger ItemPrimitive.
From Verif Require Import Sound Vpx Compat Builtin Polygon Smooth FileSystem Walls RubberMesh Ramps Transform TableInfo ExpandedItems BaseFacts SoundFacts ExpandedItemsFacts.
From Verif Require Import SpecBuiltin SpecPolygon SpecSmooth SpecWalls SpecRubber SpecRamps WallsFacts PropertiesBuiltin PropertiesPolygon PropertiesSmooth PropertiesWalls PropertiesRubber PropertiesRamps.
From Verif Require Import TransformReals ObjExport SpecObjExport ObjExportFacts.
Local Open Scope Z_scope.

Lemma start_ok T v o l m : materials_ok T v o (mkWriterState 0 [] [] 0 [] l [MComment m] []) [].
Proof.
  constructor; cbn [ws_image_filenames ws_used_lower_filenames ws_images ws_seen_mtl_pairs ws_mtl].
  - constructor; cbn; [discriminate|reflexivity|constructor|intros ? ? []].
  - intros e. split; intros [].
  - intros ? ? [].
  - constructor.
  - discriminate.
Qed.
Lemma playfield_first T v o bs : table_blocks T v o = Ok bs -> exists r, bs = playfield_block v :: r /\ items_blocks T v o (vpx_gameitems v) = Ok r.
Proof. unfold table_blocks. destruct (items_blocks T v o (vpx_gameitems v)) as [r|e]; cbn [rbind]; [|discriminate]. intros [= <-]. eauto. Qed.
Lemma playfield_drawn v : drawn (playfield_block v) = true /\ bl_smoothing (playfield_block v) = true.
Proof. split; reflexivity. Qed.

(** The exported file can be read, and shows exactly the triangles of the table's parts in their order: each with the name of its part, at the
    place of its own vertices, and all of them smooth. *)
Theorem C66_shapes : forall T v o checked file bs s, table_blocks T v o = Ok bs -> Forall in_range bs -> vertex_count (filter drawn bs) < 2 ^ 32 -> export_obj T v o checked file = Ok s ->
  exists shapes, read_obj_file (ws_obj s) = Some shapes /\ shown (et_sanitize T) o None (filter drawn bs) shapes /\ Forall (fun x => sh_smooth x = true) shapes.
Proof.
  intros T v o checked file bs s B R L H. unfold export_obj in H. rewrite B in H. cbn [rbind] in H.
  destruct (blocks_shown T v o checked bs _ s [] [] [] [] None false H R eq_refl eq_refl eq_refl L) as (lines & shapes & E & S1 & S2 & S3).
  exists shapes. cbn [ws_obj] in E. rewrite E. split; [exact S1|]. split; [exact S2|]. apply S3. right.
  destruct (playfield_first _ _ _ _ B) as (r & -> & _). destruct (playfield_drawn v) as [D M]. cbn [filter]. rewrite D. exact M.
Qed.
Print Assumptions C66_shapes.

Lemma parts_total : forall T v o checked file bs, keeps_copies (et_lower T) -> table_blocks T v o = Ok bs -> Forall in_range bs -> vertex_count (filter drawn bs) < 2 ^ 32 ->
  Forall (decodable T) (vpx_images v) -> exists s, export_obj T v o checked file = Ok s.
Proof.
  intros T v o checked file bs K B R L D. unfold export_obj. rewrite B. cbn [rbind]. apply blocks_total; [exact K|exact D|exact R|cbn; lia|exact L].
Qed.

Lemma done_pairs bs m t : In (m, t) (flat_map pairs_of (filter drawn bs)) <-> exists b, In b bs /\ drawn b = true /\ bl_material b = Some m /\ bl_texture b = t.
Proof.
  rewrite in_flat_map. split.
  - intros (b & I & P). apply filter_In in I. destruct I as [I D]. exists b. unfold pairs_of in P. destruct (bl_material b); [|contradiction]. destruct P as [[= -> ->]|[]]. auto.
  - intros (b & I & D & M & E). exists b. split; [apply filter_In; auto|]. unfold pairs_of. rewrite M, E. left. reflexivity.
Qed.
Lemma exported T v o checked file bs s : table_blocks T v o = Ok bs -> export_obj T v o checked file = Ok s -> materials_ok T v o s (flat_map pairs_of (filter drawn bs)).
Proof.
  intros B H. unfold export_obj in H. rewrite B in H. cbn [rbind] in H. destruct (blocks_ok T v o checked bs _ s [] (start_ok _ _ _ _ _) H) as (M & _). exact M.
Qed.
Lemma section_lines T v o s done m t : materials_ok T v o s done -> In (m, t) done -> exists lines maps, section_of T v o s (m, t) = (exported_material (et_sanitize T) (oo_extract_textures o) m t, lines ++ maps) /\
  material_lines v m lines /\ texture_lines T v (oo_extract_textures o) t (ws_images s) maps.
Proof.
  intros M I. destruct (block_of v (exported_material (et_sanitize T) (oo_extract_textures o) m t) m (path_in o s t)) as (lines & B & L & _). exists lines, (file_lines (path_in o s t)).
  split; [unfold section_of; cbn [fst snd]; rewrite B; reflexivity|]. split; [exact L|]. pose proof (proj1 (Forall_forall _ _) (mo_resolved _ _ _ _ _ M) _ I) as R. cbn [snd] in R. unfold path_in, resolved in *. destruct t as [t|].
  - destruct (oo_extract_textures o) eqn:X; [|apply Untextured; discriminate]. destruct (lookup t (ws_image_filenames s)) as [f|] eqn:K.
    + destruct (io_files _ _ _ (mo_images _ _ _ _ _ M) _ _ K) as (i & d & F & W & D). apply (Textured _ _ _ _ _ t i f d); auto.
    + apply Untextured. intros _ x E. apply (R x E eq_refl). injection E as <-. exact K.
  - apply Untextured. discriminate.
Qed.

(** The material file describes the material of every part, with the colours of the table's material and the file of the texture's image.  If no
    other material or texture has the same name in the file, it is described in no other way. *)
Theorem C66_materials : forall T v o checked file bs s b m, table_blocks T v o = Ok bs -> export_obj T v o checked file = Ok s -> In b bs -> drawn b = true -> bl_material b = Some m ->
  let name := exported_material (et_sanitize T) (oo_extract_textures o) in
  exists lines maps, In (name m (bl_texture b), lines ++ maps) (read_mtl_file (ws_mtl s)) /\ material_lines v m lines /\ texture_lines T v (oo_extract_textures o) (bl_texture b) (ws_images s) maps /\
    ((forall b' m', In b' bs -> drawn b' = true -> bl_material b' = Some m' -> name m' (bl_texture b') = name m (bl_texture b) -> m' = m /\ bl_texture b' = bl_texture b) ->
     forall all, In (name m (bl_texture b), all) (read_mtl_file (ws_mtl s)) -> all = lines ++ maps).
Proof.
  intros T v o checked file bs s b m B H I D M name. pose proof (exported _ _ _ _ _ _ _ B H) as OK.
  assert (IN : In (m, bl_texture b) (flat_map pairs_of (filter drawn bs))) by (apply done_pairs; eauto).
  destruct (section_lines _ _ _ _ _ _ _ OK IN) as (lines & maps & S & L & X). exists lines, maps. fold name in S.
  split; [apply (mo_sections _ _ _ _ _ OK); rewrite <- S; apply in_map; exact IN|]. split; [exact L|]. split; [exact X|].
  intros U all A. apply (mo_sections _ _ _ _ _ OK) in A. apply in_map_iff in A. destruct A as ([m' t'] & E & I'). apply done_pairs in I'. destruct I' as (b' & J & D' & M' & T').
  assert (N : name m' (bl_texture b') = name m (bl_texture b)) by (rewrite T'; unfold section_of in E; cbn [fst snd] in E; apply (f_equal fst) in E; exact E).
  destruct (U b' m' J D' M' N) as [-> E2]. rewrite T' in E2. rewrite E2, S in E. injection E as <-. reflexivity.
Qed.
Print Assumptions C66_materials.

(** Everything in the material file is the description of some part's material, every material the shapes use is described, and the files of
    images hold images the parts use; no two of them have the same name, even in a directory that ignores case. *)
Theorem C66_files : forall T v o checked file bs s, table_blocks T v o = Ok bs -> export_obj T v o checked file = Ok s ->
  (forall name all, In (name, all) (read_mtl_file (ws_mtl s)) -> exists b m lines maps, In b bs /\ drawn b = true /\ bl_material b = Some m /\
     name = exported_material (et_sanitize T) (oo_extract_textures o) m (bl_texture b) /\ all = lines ++ maps /\ material_lines v m lines /\ texture_lines T v (oo_extract_textures o) (bl_texture b) (ws_images s) maps) /\
  NoDup (map (fun e => et_lower T (fst e)) (ws_images s)) /\
  (forall f d, In (f, d) (ws_images s) -> oo_extract_textures o = true /\ exists b t i, In b bs /\ drawn b = true /\ bl_material b <> None /\ bl_texture b = Some t /\ first_named im_name t (vpx_images v) i /\
     image_file (et_lzw_decode T) (et_bmp T) i d).
Proof.
  intros T v o checked file bs s B H. pose proof (exported _ _ _ _ _ _ _ B H) as OK. split; [|split].
  - intros name all A. apply (mo_sections _ _ _ _ _ OK) in A. apply in_map_iff in A. destruct A as ([m t] & E & I). destruct (section_lines _ _ _ _ _ _ _ OK I) as (lines & maps & S & L & X).
    rewrite S in E. injection E as <- <-. apply done_pairs in I. destruct I as (b & J & D & M & <-). exists b, m, lines, maps. auto 8.
  - apply (io_distinct _ _ _ (mo_images _ _ _ _ _ OK)).
  - intros f d I. destruct (io_known _ _ _ (mo_images _ _ _ _ _ OK) _ _ I) as (n & K). destruct (mo_asked _ _ _ _ _ OK _ _ K) as (X & m & P). split; [exact X|].
    apply done_pairs in P. destruct P as (b & J & D & M & E). destruct (io_files _ _ _ (mo_images _ _ _ _ _ OK) _ _ K) as (i & d' & F & W & G). exists b, n, i.
    split; [exact J|]. split; [exact D|]. split; [congruence|]. split; [exact E|]. split; [exact F|].
    assert (d' = d) as <-; [|exact G]. pose proof (io_distinct _ _ _ (mo_images _ _ _ _ _ OK)) as ND. clear -I W ND.
    induction (ws_images s) as [|e l IH]; [contradiction|]. cbn [map] in ND. apply NoDup_cons_iff in ND. destruct ND as [N ND].
    assert (IM : forall x, In (f, x) l -> fst e = f -> False) by (intros x J <-; apply N; apply in_map_iff; exists (fst e, x); auto).
    destruct I as [->|I], W as [W|W]; [injection W as <-; reflexivity|exfalso; apply (IM d' W); reflexivity|subst e; exfalso; apply (IM d I); reflexivity|exact (IH I W ND)].
Qed.
Print Assumptions C66_files.
Theorem C66_described : forall T v o checked file bs s shapes x n, table_blocks T v o = Ok bs -> Forall in_range bs -> vertex_count (filter drawn bs) < 2 ^ 32 -> export_obj T v o checked file = Ok s ->
  read_obj_file (ws_obj s) = Some shapes -> In x shapes -> sh_material x = Some n -> In n (map fst (read_mtl_file (ws_mtl s))).
Proof.
  intros T v o checked file bs s shapes x n B R L H RD I M. destruct (C66_shapes _ _ _ _ _ _ _ B R L H) as (shapes' & RD' & S & _). rewrite RD in RD'. injection RD' as <-. clear RD R L.
  assert (G : forall l cur shapes, (forall b, In b l -> In b bs /\ drawn b = true) -> (forall k, cur = Some k -> In k (map fst (read_mtl_file (ws_mtl s)))) ->
            shown (et_sanitize T) o cur l shapes -> In x shapes -> In n (map fst (read_mtl_file (ws_mtl s)))).
  { clear shapes S I. induction l as [|b l IH]; intros cur shapes Hl Hc S I; [cbn [shown] in S; subst; contradiction|]. cbn [shown] in S.
    set (cur' := match bl_material b with Some m => Some (exported_material (et_sanitize T) (oo_extract_textures o) m (bl_texture b)) | None => cur end) in S.
    assert (Hc' : forall k, cur' = Some k -> In k (map fst (read_mtl_file (ws_mtl s)))).
    { unfold cur'. destruct (bl_material b) as [m|] eqn:Mb; [|exact Hc]. intros k [= <-]. destruct (Hl b (or_introl eq_refl)) as [J D]. destruct (C66_materials T v o checked file bs s b m B H J D Mb) as (lines & maps & X & _).
      apply (in_map fst) in X. exact X. }
    destruct S as (these & others & -> & F & S). apply in_app_or in I. destruct I as [I|I].
    - assert (E : exists f, shows (oo_units o) b cur' f x).
      { clear -F I. induction F as [|f y fs ys HF _ IHF]; [contradiction|]. destruct I as [->|I]; [eauto|auto]. }
      destruct E as (f & _ & E & _). rewrite M in E. apply Hc'. symmetry. exact E.
    - apply (IH cur' others); [intros; apply Hl; right; assumption|exact Hc'|exact S|exact I]. }
  apply (G (filter drawn bs) None shapes); [intros b J; apply filter_In; exact J|discriminate|exact S|exact I].
Qed.
Print Assumptions C66_described.

(** With de-duplication no material is described twice for the same texture. *)
Theorem C66_once : forall T v o checked file bs s, table_blocks T v o = Ok bs -> export_obj T v o checked file = Ok s -> oo_dedup_mtl_blocks o = true ->
  exists pairs, NoDup pairs /\ (forall m t, In (m, t) pairs -> exists b, In b bs /\ drawn b = true /\ bl_material b = Some m /\ t = match bl_texture b with Some t => t | None => [] end) /\
    map fst (read_mtl_file (ws_mtl s)) = map (fun p => exported_material (et_sanitize T) (oo_extract_textures o) (fst p) (Some (snd p))) pairs.
Proof.
  intros T v o checked file bs s B H DD. pose proof (exported _ _ _ _ _ _ _ B H) as OK. unfold export_obj in H. rewrite B in H. cbn [rbind] in H.
  destruct (blocks_ok T v o checked bs _ s [] (start_ok _ _ _ _ _) H) as (_ & O & _). destruct (O DD) as [N E]; [split; [constructor|reflexivity]|].
  exists (rev (ws_seen_mtl_pairs s)). split; [apply NoDup_rev, N|]. split; [|rewrite E, map_rev; reflexivity].
  intros m t I. apply in_rev in I. destruct (mo_seen _ _ _ _ _ OK _ _ I) as (t' & <- & J). apply done_pairs in J. destruct J as (b & J & D & M & <-). exists b. auto.
Qed.
Print Assumptions C66_once.
(** In strict mode there is one description for each part with a material, in their order, and no images. *)
Theorem C66_strict : forall T v checked file bs s, table_blocks T v vpinball_strict = Ok bs -> export_obj T v vpinball_strict checked file = Ok s ->
  map fst (read_mtl_file (ws_mtl s)) = flat_map (fun b => match bl_material b with Some m => [exported_material (et_sanitize T) false m None] | None => [] end) (filter drawn bs) /\
  ws_images s = [].
Proof.
  intros T v checked file bs s B H. unfold export_obj in H. rewrite B in H. cbn [rbind] in H.
  destruct (blocks_ok T v vpinball_strict checked bs _ s [] (start_ok _ _ _ _ _) H) as (_ & _ & I & E). split; [|apply I; reflexivity]. rewrite (E eq_refl eq_refl). cbn [ws_mtl read_mtl_file map app].
  clear. induction (filter drawn bs) as [|b l IH]; [reflexivity|]. cbn [flat_map]. rewrite map_app. f_equal; [|exact IH]. unfold pairs_of. destruct (bl_material b) as [m|]; [|reflexivity].
  cbn [map fst snd]. unfold exported_material. destruct (bl_texture b) as [[|]|]; reflexivity.
Qed.
Print Assumptions C66_strict.

(** ** Units *)
(** A vertex of an ordinary table is exported where it is, in the chosen unit: within a five-millionth of its coordinates, and with z pointing the other way. *)
Theorem C66_scale : forall u t p, Forall moderate [v_x p; v_y p; v_z p; vec_x t; vec_y t; vec_z t] ->
  let '(x, y, z) := cr_position (exported_vertex u t p) in
  finite32 x /\ finite32 y /\ finite32 z /\ near_length u (real x) (v_x p) (vec_x t) /\ near_length u (real y) (v_y p) (vec_y t) /\ near_length u (- real z) (v_z p) (vec_z t).
Proof.
  intros u t p M. unfold exported_vertex. cbv zeta. cbn [cr_position].
  repeat match goal with H : Forall _ (_ :: _) |- _ => apply Forall_cons_iff in H; destruct H as [? H] end.
  destruct (moderate_scaled u (v_x p) (vec_x t)) as (X1 & X2 & _); [assumption..|]. destruct (moderate_scaled u (v_y p) (vec_y t)) as (Y1 & Y2 & _); [assumption..|].
  destruct (moderate_scaled u (v_z p) (vec_z t)) as (_ & _ & Z1 & Z2); [assumption..|]. auto 8.
Qed.
Print Assumptions C66_scale.
Example C66_scale_example : Forall moderate (map int32 [100; -2000; 50; 3; 4; 5]) /\
  cr_position (exported_vertex Units_Mm (mkVec3 (int32 3) (int32 4) (int32 5)) (mkVtx (int32 100) (int32 (-2000)) (int32 50) f32_zero f32_zero f32_one f32_zero f32_zero)) =
    (Z_to_w32 0x425e6083, Z_to_w32 0xc486aae9, Z_to_w32 0xc1ed7d70).
Proof.
  split; [|vm_compute; reflexivity]. repeat (apply Forall_cons; [split; [vm_compute; exact I|apply Z.leb_le; vm_compute; reflexivity]|]). apply Forall_nil.
Qed.

(** ** Items *)
Lemma surface_ok T v n c h : surface_height T v n c = Ok h -> stands_at (et_fuel T) v n (v2_x c) (v2_y c) h.
Proof.
  unfold surface_height. destruct n as [|a n]; [intros [= <-]; apply On_playfield; left; reflexivity|]. cbn [is_empty]. assert (N : a :: n <> []) by discriminate. set (name := a :: n) in *. clearbody name. clear a n.
  assert (G : forall items before, vpx_gameitems v = before ++ items -> Forall (fun i => is_surface name i = false) before -> find_surface T items name (v2_x c) (v2_y c) = Ok h -> stands_at (et_fuel T) v name (v2_x c) (v2_y c) h).
  { induction items as [|i items IH]; intros before E F H.
    - injection H as <-. apply On_playfield. right. rewrite E, app_nil_r. exact F.
    - assert (G : is_surface name i = false -> find_surface T items name (v2_x c) (v2_y c) = Ok h -> stands_at (et_fuel T) v name (v2_x c) (v2_y c) h).
      { intros S HH. apply (IH (before ++ [i])); [rewrite <- app_assoc; exact E|apply Forall_app; split; [exact F|constructor; [exact S|constructor]]|exact HH]. }
      destruct i; cbn [find_surface] in H; try (apply G; [reflexivity|exact H]).
      + cbn [is_surface] in G. destruct (eq_ignore_ascii_case (Wall_name _) name) eqn:S; [|apply G; [reflexivity|exact H]]. injection H as <-. eapply On_wall; eauto.
      + cbn [is_surface] in G. destruct (eq_ignore_ascii_case (Ramp_name _) name) eqn:S; [|apply G; [reflexivity|exact H]]. eapply On_ramp; eauto. }
  apply (G _ []); [reflexivity|constructor].
Qed.
Lemma some_named s : some_name s = named s.
Proof. destruct s; reflexivity. Qed.

(** An item is exported as its visible parts, each with its own name, material, texture, mesh and place.  The items are exported in their order,
    after the playfield. *)
Theorem C66_parts : forall T v o bs, table_blocks T v o = Ok bs -> exists parts, bs = playfield_block v :: List.concat parts /\ Forall2 (item_parts T v o) (vpx_gameitems v) parts.
Proof.
  intros T v o bs B. destruct (playfield_first _ _ _ _ B) as (r & -> & E). clear B.
  assert (G : exists parts, r = List.concat parts /\ Forall2 (item_parts T v o) (vpx_gameitems v) parts); [|destruct G as (parts & -> & G); exists parts; auto].
  assert (ONE : forall i bs, item_blocks T v o i = Ok bs -> item_parts T v o i bs).
  2:{ revert r E. induction (vpx_gameitems v) as [|i l IH]; intros r E; [injection E as <-; exists []; split; [reflexivity|constructor]|]. cbn [items_blocks] in E.
      destruct (item_blocks T v o i) as [a|e] eqn:A; cbn [rbind] in E; [|discriminate]. destruct (items_blocks T v o l) as [c|e]; cbn [rbind] in E; [|discriminate]. injection E as <-.
      destruct (IH c eq_refl) as (parts & -> & F). exists (a :: parts). split; [reflexivity|constructor; [apply ONE, A|exact F]]. }
  clear r E. intros i bs H. unfold item_parts. destruct i; cbn [item_blocks] in H; cbn [hidden item_name part_rows moved_to];
    try (injection H as <-; split; [reflexivity|constructor]).
  - (* wall *)
    unfold wall_blocks in H. destruct (build_wall_meshes (et_fuel T) v0 (table_dimensions v)) as [m|e] eqn:M; cbn [rbind] in *; [|discriminate]. injection H as <-.
    destruct m as [m|]; [|destruct (Wall_is_top_bottom_visible v0), (Wall_is_side_visible v0); cbn [negb andb]; try destruct (oo_extract_textures o); split; (reflexivity || constructor)].
    destruct (wm_top m) as [[tv tf]|], (wm_side m) as [[sv sf]|], (Wall_is_top_bottom_visible v0), (Wall_is_side_visible v0); cbn [negb andb]; try destruct (oo_extract_textures o); try destruct (is_empty (Wall_image v0)) eqn:I;
      cbn [map flat_map present app bl_name bl_material bl_texture bl_vertices bl_faces bl_translation]; rewrite ?app_nil_r, ?some_named; (split; [|repeat constructor]); try reflexivity;
      try (destruct (Wall_image v0); [reflexivity|discriminate]); try (destruct (Wall_image v0); [discriminate|reflexivity]).
  - (* flipper *)
    injection H as <-. destruct (et_flipper T v0) as [[[base rubber] centre]|]; [|split; [reflexivity|constructor]]. unfold part_block. destruct base as [bv bf]. destruct rubber as [[rv rf]|];
      cbn [map flat_map present app bl_name bl_material bl_texture bl_vertices bl_faces bl_translation]; (split; [destruct (Flipper_image v0); rewrite ?some_named; reflexivity|repeat constructor; cbn [bl_translation]; eauto]).
  - (* plunger *)
    destruct (oo_include_plunger o); [|injection H as <-; rewrite orb_true_r; split; [reflexivity|constructor]]. rewrite orb_false_r. unfold plunger_blocks in H. destruct (negb (Plunger_is_visible v0)); [injection H as <-; split; [reflexivity|constructor]|].
    destruct (surface_height T v (Plunger_surface v0) (Plunger_center v0)) as [h|e] eqn:S; cbn [rbind] in H; [|discriminate]. apply surface_ok in S.
    destruct (et_plunger T v0) as [[[[a b] c] d] e]. injection H as <-. cbv zeta. unfold part_block. rewrite !some_named.
    destruct a as [[av af]|], b as [[bv bf]|], c as [[cv cf]|], d as [[dv df]|], e as [[ev ef]|]; (split; [reflexivity|repeat constructor; cbn [bl_translation]; eauto]).
  - (* bumper *)
    unfold bumper_blocks in H. destruct (surface_height T v (Bumper_surface v0) (Bumper_center v0)) as [h|e] eqn:S; cbn [rbind] in H; [|discriminate]. apply surface_ok in S.
    destruct (et_bumper T v0) as [[[a b] c] d]. injection H as <-. unfold part_block.
    destruct a as [[av af]|], b as [[bv bf]|], c as [[cv cf]|], d as [[dv df]|]; (split; [reflexivity|repeat constructor; cbn [bl_translation]; eauto]).
  - (* trigger *)
    unfold trigger_blocks in H. destruct (negb (Trigger_is_visible v0)); [injection H as <-; split; [reflexivity|constructor]|].
    destruct (surface_height T v (Trigger_surface v0) (Trigger_center v0)) as [h|e] eqn:S; cbn [rbind] in H; [|discriminate]. apply surface_ok in S. injection H as <-. unfold part_block.
    destruct (et_trigger T v0) as [[av af]|]; (split; [cbn [map flat_map present app]; rewrite ?app_nil_r; reflexivity|repeat constructor; cbn [bl_translation]; eauto]).
  - (* kicker *)
    unfold kicker_blocks in H. destruct (Kicker_kicker_type v0); try (injection H as <-; split; [reflexivity|constructor]);
      (destruct (surface_height T v (Kicker_surface v0) (Kicker_center v0)) as [h|e] eqn:S; cbn [rbind] in H; [|discriminate]; apply surface_ok in S;
       destruct (et_kicker T v0) as [a b]; injection H as <-; unfold part_block;
       destruct a as [[av af]|], b as [[bv bf]|]; (split; [cbn [map flat_map present app]; rewrite ?app_nil_r; reflexivity|repeat constructor; cbn [bl_translation]; eauto])).
  - (* gate *)
    unfold gate_blocks in H. destruct (surface_height T v (Gate_surface v0) (Gate_center v0)) as [h|e] eqn:S; cbn [rbind] in H; [|discriminate]. apply surface_ok in S. injection H as <-.
    destruct (et_gate T v0) as [[b [wv wf]]|]; [|split; [reflexivity|constructor]]. unfold part_block.
    destruct b as [[bv bf]|]; (split; [reflexivity|repeat constructor; cbn [bl_translation]; eauto]).
  - (* spinner *)
    unfold spinner_blocks in H. destruct (surface_height T v (Spinner_surface v0) (Spinner_center v0)) as [h|e] eqn:S; cbn [rbind] in H; [|discriminate]. apply surface_ok in S.
    destruct (et_spinner T v0) as [b [pv pf]]. injection H as <-. unfold part_block.
    destruct b as [[bv bf]|]; (split; [reflexivity|repeat constructor; cbn [bl_translation]; eauto]).
  - (* ramp *)
    unfold ramp_blocks in H. destruct (negb (Ramp_is_visible v0)); [injection H as <-; split; [reflexivity|constructor]|]. cbv zeta in *.
    destruct (build_ramp_mesh _ _ _ _ _ _ _) as [[[vs fs]|]|e]; cbn [rbind] in H; [injection H as <-|injection H as <-|discriminate]; (split; [|repeat constructor]).
    + cbn [map flat_map present app bl_name bl_material bl_texture bl_vertices bl_faces]. rewrite app_nil_r, some_named. reflexivity.
    + reflexivity.
  - (* primitive *)
    unfold primitive_blocks in H. destruct (negb (primitive_is_visible v0 (vpx_version v))); [injection H as <-; split; [reflexivity|constructor]|].
    change (eq_ignore_ascii_case (Primitive_name v0) (lit "playfield_mesh")) with (is_playfield v0).
    destruct (effective_primitive_mesh T v0) as [[[vs fs]|]|[]]; cbn [rbind option_map fst snd] in *; try discriminate.
    + destruct (is_playfield v0); injection H as <-; (split; [|repeat constructor]); cbn [map flat_map present app bl_name bl_material bl_texture bl_vertices bl_faces]; rewrite app_nil_r, some_named; reflexivity.
    + injection H as <-. destruct (is_playfield v0); (split; [reflexivity|constructor]).
    + injection H as <-. destruct (is_playfield v0); (split; [reflexivity|constructor]).
  - (* rubber *)
    unfold rubber_blocks in H. destruct (negb (Rubber_is_visible v0)); [injection H as <-; split; [reflexivity|constructor]|].
    destruct (build_rubber_mesh _ _ _ _ _) as [[[[vs fs] c]|]|e] eqn:E; cbn [rbind option_map] in *; [injection H as <-|injection H as <-|discriminate].
    + split; [cbn [map flat_map present app bl_name bl_material bl_texture bl_vertices bl_faces fst]; rewrite app_nil_r; reflexivity|]. constructor; [|constructor]. cbn [bl_translation]. eauto.
    + split; [reflexivity|constructor].
  - (* hit target *)
    injection H as <-. unfold part_block. destruct (et_target T v0) as [[av af]|]; (split; [cbn [map flat_map present app bl_name bl_material bl_texture bl_vertices bl_faces]; rewrite ?app_nil_r, ?some_named; reflexivity|repeat constructor]).
Qed.
Print Assumptions C66_parts.

(** ** When exporting succeeds *)
(** What the tables must hold: coordinates of moderate size, no visible rubber with all its points at one place, and no primitive whose counts of
    vertices and indices are wrong *)
Definition exportable (T : export_tools) (i : GameItem) : Prop :=
  match i with
  | GI_Wall w => moderate_wall w
  | GI_Ramp r => moderate_ramp r
  | GI_Rubber r => moderate_rubber r /\ (buildable r -> ~ one_place (Rubber_drag_points r))
  | GI_Primitive p => forall e, effective_primitive_mesh T p = Fail e -> Fail e = (Err : res (option mesh))
  | _ => True
  end.
Lemma surface_total T v n c : (151 <= et_fuel T)%nat -> Forall (exportable T) (vpx_gameitems v) -> exists h, surface_height T v n c = Ok h.
Proof.
  intros D F. unfold surface_height. destruct (is_empty n); [eauto|]. induction F as [|i l X F IH]; [eexists; reflexivity|].
  destruct i; cbn [find_surface]; try exact IH.
  - destruct (eq_ignore_ascii_case _ _); [eauto|exact IH].
  - destruct (eq_ignore_ascii_case _ _); [|exact IH]. cbn [exportable] in X. destruct (C60_ramp_ends (Ramp_drag_points v0) f32_four X eq_refl) as (curve & G). unfold ramp_surface_height. rewrite (G _ D). cbn [rbind].
    destruct (_ <? _)%nat; [eauto|]. destruct (closest_point _ _ _) as [[p k]|]; eauto.
Qed.
Lemma detail_range g : 0 <= effective_detail_level g < 2 ^ 32.
Proof.
  unfold effective_detail_level. destruct (GDScene_overwrite_global_detail_level (gd_scene g)) as [[]|]; [|lia|lia]. destruct (GDScene_user_detail_level (gd_scene g)) as [d|]; [|lia]. pose proof (w32_to_Z_range d). lia.
Qed.
Lemma item_total T v o i : (151 <= et_fuel T)%nat -> Forall (exportable T) (vpx_gameitems v) -> exportable T i -> exists bs, item_blocks T v o i = Ok bs.
Proof.
  intros D F X. assert (S : forall n c, exists h, surface_height T v n c = Ok h) by (intros; apply surface_total; assumption).
  destruct i; cbn [item_blocks]; try (eexists; reflexivity).
  - unfold wall_blocks. destruct (C63_total v0 (table_dimensions v) X) as (m & ms & G). destruct (G _ D) as [_ ->]. cbn [rbind]. eauto.
  - destruct (oo_include_plunger o); [|eauto]. unfold plunger_blocks. destruct (negb _); [eauto|]. destruct (S (Plunger_surface v0) (Plunger_center v0)) as (h & ->). cbn [rbind]. destruct (et_plunger T v0) as [[[[a b] c] d] e]. eauto.
  - unfold bumper_blocks. destruct (S (Bumper_surface v0) (Bumper_center v0)) as (h & ->). cbn [rbind]. destruct (et_bumper T v0) as [[[a b] c] d]. eauto.
  - unfold trigger_blocks. destruct (negb _); [eauto|]. destruct (S (Trigger_surface v0) (Trigger_center v0)) as (h & ->). cbn [rbind]. eauto.
  - unfold kicker_blocks. destruct (S (Kicker_surface v0) (Kicker_center v0)) as (h & ->). cbn [rbind]. destruct (Kicker_kicker_type v0), (et_kicker T v0) as [a b]; eauto.
  - unfold gate_blocks. destruct (S (Gate_surface v0) (Gate_center v0)) as (h & ->). cbn [rbind]. eauto.
  - unfold spinner_blocks. destruct (S (Spinner_surface v0) (Spinner_center v0)) as (h & ->). cbn [rbind]. destruct (et_spinner T v0) as [a b]; eauto.
  - unfold ramp_blocks. destruct (negb _); [eauto|]. cbv zeta. match goal with |- context [build_ramp_mesh _ _ _ _ _ _ ?a] => destruct (C65_total (et_sin T) (et_cos T) v0 (table_dimensions v) (effective_detail_level (vpx_gamedata v)) a X (detail_range _)) as (m & G & _) end.
    rewrite (G _ D). cbn [rbind]. eauto.
  - unfold primitive_blocks. destruct (negb _); [eauto|]. cbn [exportable] in X. destruct (effective_primitive_mesh T v0) as [[[vs fs]|]|e]; [destruct (is_playfield v0); eauto|eauto|]. specialize (X e eq_refl). destruct e; try discriminate. eauto.
  - unfold rubber_blocks. destruct (negb _); [eauto|]. destruct X as [M O].
    assert (B : exists m, build_rubber_mesh (et_sin T) (et_cos T) (et_fuel T) v0 (effective_detail_level (vpx_gamedata v)) = Ok m).
    { pose proof (proj2 (C64_none (et_sin T) (et_cos T) (et_fuel T) v0 (effective_detail_level (vpx_gamedata v)))) as N. destruct (Z.eq_dec (w32_signed (Rubber_thickness v0)) 0) as [Z0|Z0]; [eauto|].
      destruct (Z_lt_le_dec (zlen (Rubber_drag_points v0)) 2) as [L|L]; [eauto|]. assert (BU : buildable v0) by (split; assumption).
      destruct (C64_total (et_sin T) (et_cos T) v0 (effective_detail_level (vpx_gamedata v)) M BU) as [G _]. destruct (G (O BU)) as (m & E). eauto. }
    destruct B as (m & ->). cbn [rbind]. eauto.
Qed.

Lemma wall_good fuel w td wm : build_wall_meshes fuel w td = Ok (Some wm) -> (forall m, wm_top wm = Some m -> good_mesh m) /\ (forall m, wm_side wm = Some m -> good_mesh m).
Proof.
  intros H. assert (G : exists points, get_vertices fuel (Wall_drag_points w) f32_four true = Ok points).
  { unfold build_wall_meshes, build_render_vertices in H. destruct (get_vertices fuel (Wall_drag_points w) f32_four true) as [points|e]; [eauto|discriminate]. }
  destruct G as (points & G). assert (N : 3 <= zlen points).
  { destruct (Z_lt_le_dec (zlen points) 3) as [L|L]; [|exact L]. destruct (C63_none fuel w points G) as [_ C]. specialize (C td). destruct C as [_ C]. rewrite C in H by auto. discriminate. }
  destruct (meshes_of fuel w td points G N) as (tvs & tfs & B & T & L & E). cbv zeta in E. rewrite E in H. clear E.
  match type of H with context [build_side_mesh w points ?c] => set (coords := c) in * end. destruct wm as [top side]. cbn [wm_top wm_side].
  assert (HT : top = if is_empty tfs then None else Some (map wrap tvs, tfs)) by congruence.
  assert (HS : side = Some (map wrap (fst (build_side_mesh w points coords)), snd (build_side_mesh w points coords))) by congruence. clear H. split; intros m.
  - rewrite HT. destruct (is_empty tfs); [discriminate|]. intros [= <-]. unfold good_mesh. cbn [fst snd]. replace (zlen (map wrap tvs)) with (zlen points) by (unfold zlen in *; rewrite map_length; lia).
    destruct (C59_triangles triangulate_wall _ _ (or_introl eq_refl) T) as [_ F]. eapply Forall_impl; [|exact F]. intros f [I _]. unfold zlen in I. rewrite map_length in I. exact I.
  - rewrite HS. intros K. assert (m = (map wrap (fst (build_side_mesh w points coords)), snd (build_side_mesh w points coords))) as -> by congruence. clear K. unfold good_mesh. cbn [fst snd].
    replace (zlen (map wrap (fst (build_side_mesh w points coords)))) with (4 * zlen points) by (pose proof (side_count w points coords); unfold zlen in *; rewrite map_length; lia).
    apply Forall_forall. intros f I. apply side_faces_good in I. apply I.
Qed.
Lemma joined_good tv tf sv sf : good_mesh (tv, tf) -> good_mesh (sv, sf) -> good_mesh (sv ++ tv, sf ++ map (shifted (zlen sv)) tf).
Proof.
  unfold good_mesh. cbn [fst snd]. intros A B. replace (zlen (sv ++ tv)) with (zlen sv + zlen tv) by (unfold zlen; rewrite app_length; lia). apply Forall_app. split.
  - eapply Forall_impl; [|exact B]. unfold face_within, zlen. intros f (? & ? & ?). lia.
  - apply Forall_map. eapply Forall_impl; [|exact A]. unfold face_within, shifted, zlen. intros f (? & ? & ?). cbn [f_0 f_1 f_2]. lia.
Qed.
Lemma rows_good T v o i suffix material texture m : good_items T v o -> In i (vpx_gameitems v) -> In (suffix, material, texture, Ok (Some m)) (part_rows T v o i) -> good_mesh m.
Proof.
  intros G I R. destruct i; try (apply (G _ _ _ _ _ I Logic.I R)).
  - cbn [part_rows] in R. destruct (build_wall_meshes (et_fuel T) v0 (table_dimensions v)) as [[wm|]|e] eqn:E; cbn [rbind] in R.
    + destruct (wall_good _ _ _ _ E) as [GT GS]. destruct (Wall_is_top_bottom_visible v0), (Wall_is_side_visible v0); [destruct (oo_extract_textures o)|..].
      * destruct R as [R|[R|[]]]; injection R as _ _ _ R; [destruct (wm_top wm); [|discriminate]; apply GS; exact R|destruct (wm_side wm); [|discriminate]; apply GT; exact R].
      * destruct R as [R|[]]. injection R as _ _ _ R. destruct (wm_top wm) as [[tv tf]|]; [|discriminate]. destruct (wm_side wm) as [[sv sf]|]; [|discriminate]. injection R as <-. apply joined_good; auto.
      * destruct R as [R|[]]. injection R as _ _ _ R. auto.
      * destruct R as [R|[]]. injection R as _ _ _ R. auto.
      * destruct R.
    + destruct (Wall_is_top_bottom_visible v0), (Wall_is_side_visible v0); [destruct (oo_extract_textures o)|..]; repeat (destruct R as [R|R]; [discriminate|]); destruct R.
    + destruct (Wall_is_top_bottom_visible v0), (Wall_is_side_visible v0); [destruct (oo_extract_textures o)|..]; repeat (destruct R as [R|R]; [discriminate|]); destruct R.
  - cbn [part_rows] in R. destruct R as [R|[]]. match type of R with context [build_ramp_mesh ?a ?b ?c ?d ?e ?f ?g] => destruct (build_ramp_mesh a b c d e f g) as [q|e'] eqn:E end; [|discriminate]. injection R as _ _ _ ->. destruct m as [vs fs].
    assert (GV : exists curve, get_vertices3 (et_fuel T) (Ramp_drag_points v0) f32_four = Ok curve).
    { unfold build_ramp_mesh in E. destruct (_ && _); [discriminate|]. destruct (get_vertices3 _ _ _) as [curve|e]; [eauto|discriminate]. }
    destruct GV as (curve & GV). apply (C65_mesh _ _ _ _ _ _ _ _ _ _ (detail_range _) GV E).
  - destruct (Primitive_use_3d_mesh v0) eqn:U; [apply (G _ _ _ _ _ I U R)|]. cbn [part_rows] in R. unfold effective_primitive_mesh in R. rewrite U in R. cbn [rbind] in R.
    assert (X : exists vs fs, build_builtin (et_sin T) (et_cos T) (Primitive_sides v0) (Primitive_draw_textures_inside v0) = Some (vs, fs) /\ m = (map (placed (primitive_world_matrix T v0)) vs, fs)).
    { destruct (build_builtin _ _ _ _) as [[vs fs]|]; cbn [option_map fst snd] in R.
      - exists vs, fs. split; [reflexivity|]. destruct (if eq_ignore_ascii_case _ _ then _ else _) as [a b]. destruct R as [R|[]]. apply (f_equal snd) in R. cbn [snd] in R. congruence.
      - destruct (if eq_ignore_ascii_case _ _ then _ else _) as [a b]. destruct R as [R|[]]. discriminate. }
    destruct X as (vs & fs & B & ->). unfold good_mesh. cbn [fst snd]. replace (zlen (map (placed (primitive_world_matrix T v0)) vs)) with (zlen vs) by (unfold zlen; rewrite map_length; reflexivity).
    destruct (C57_triangles _ _ _ _ _ _ B) as [F _]. eapply Forall_impl; [|exact F]. intros f [K _]. exact K.
  - cbn [part_rows] in R. destruct R as [R|[]]. destruct (build_rubber_mesh _ _ _ _ _) as [[[[vs fs] c]|]|e] eqn:E; cbn [rbind option_map fst] in R; [|discriminate|discriminate]. injection R as _ _ _ <-.
    assert (GV : exists points, get_vertices (et_fuel T) (Rubber_drag_points v0) f32_four true = Ok points).
    { unfold build_rubber_mesh, generate_mesh in E. destruct (_ =? 0); [discriminate|]. destruct (_ <? 2)%nat; [discriminate|]. destruct (get_vertices _ _ _ _) as [points|e]; [eauto|discriminate]. }
    destruct GV as (points & GV). destruct (C64_mesh _ _ _ _ _ _ _ _ _ (detail_range _) GV E) as (seg & _ & _ & _ & _ & _ & F & _). exact F.
Qed.
(** A table with sound items is exported, whatever the options, if it has fewer than 2^32 vertices and its images can be decoded; all triangles are
    between vertices of their own part. *)
Theorem C66_total : forall T v o checked file, (151 <= et_fuel T)%nat -> keeps_copies (et_lower T) -> Forall (exportable T) (vpx_gameitems v) -> good_items T v o -> Forall (decodable T) (vpx_images v) ->
  exists bs, table_blocks T v o = Ok bs /\ Forall in_range bs /\ (vertex_count (filter drawn bs) < 2 ^ 32 -> exists s, export_obj T v o checked file = Ok s).
Proof.
  intros T v o checked file D K X G I. assert (B : exists bs, table_blocks T v o = Ok bs).
  { unfold table_blocks. assert (E : forall l, Forall (exportable T) l -> exists r, items_blocks T v o l = Ok r).
    { induction l as [|i l IH]; intros F; [eexists; reflexivity|]. apply Forall_cons_iff in F. destruct F as [Fi F]. cbn [items_blocks]. destruct (item_total T v o i D X Fi) as (a & ->). destruct (IH F) as (c & ->). cbn [rbind]. eauto. }
    destruct (E _ X) as (r & ->). cbn [rbind]. eauto. }
  destruct B as (bs & B). exists bs. split; [exact B|]. assert (R : Forall in_range bs); [|split; [exact R|intros L; apply (parts_total T v o checked file bs K B R L I)]].
  destruct (C66_parts _ _ _ _ B) as (parts & -> & F). constructor.
  - change (Forall (face_within 0 3) [mkFace 0 1 2; mkFace 2 1 3]). repeat constructor; cbn [f_0 f_1 f_2]; lia.
  - assert (Z : forall items parts, Forall2 (item_parts T v o) items parts -> (forall i, In i items -> In i (vpx_gameitems v)) -> Forall in_range (List.concat parts)).
    2:{ apply (Z _ _ F). auto. }
    clear - G. intros items parts F. induction F as [|i p items parts P F IH]; intros IN; [constructor|]. cbn [List.concat]. apply Forall_app. split; [|apply IH; intros; apply IN; right; assumption].
    destruct P as [P _]. apply Forall_forall. intros b Bi. apply (in_map (fun b => (bl_name b, bl_material b, bl_texture b, (bl_vertices b, bl_faces b)))) in Bi. rewrite P in Bi. destruct (hidden v o i); [destruct Bi|].
    apply in_flat_map in Bi. destruct Bi as ([[[suffix material] texture] m] & Ri & Bi). destruct m as [[m|]|e]; cbn [present] in Bi; [|destruct Bi|destruct Bi]. destruct Bi as [Bi|[]]. injection Bi as _ _ _ ->.
    apply (rows_good T v o i _ _ _ _ G (IN i (or_introl eq_refl)) Ri).
Qed.
Print Assumptions C66_total.

(** ** A table with materials, an image, targets, a bumper and a wall *)
Definition corner_at (x y z : Z) : wrapper := mkWrapper [] (mkVtx (int32 x) (int32 y) (int32 z) f32_zero f32_zero f32_one f32_zero f32_one).
Definition tri : mesh := ([corner_at 0 0 0; corner_at 8 0 0; corner_at 0 8 4], [mkFace 0 1 2]).
Definition kept_text : rstring -> rstring := fun s => s.
Definition example_tools : export_tools :=
  mkTools (fun _ => f32_zero) (fun _ => f32_one) kept_text kept_text (fun b => Ok b) (fun b => Ok b) (fun _ => Ok []) (fun _ => (None, Some tri, None, None)) (fun _ => None) (fun _ => None) (fun _ => (None, None))
    (fun _ => (None, tri)) (fun _ => Some tri) (fun _ => None) (fun _ => (None, None, None, None, None)) 151.
Definition paint (name : rstring) (r g b : Z) : Material := set_Material_name name (set_Material_base_color (Color_rgb r g b) Material_default).
Definition target (name material image : rstring) : GameItem :=
  GI_HitTarget (set_HitTarget_name name (set_HitTarget_material material (set_HitTarget_image image (set_HitTarget_position (mkVertex3D (int32 100) (int32 200) (int32 50)) HitTarget_default)))).
Definition bumper (name surface : rstring) : GameItem := GI_Bumper (set_Bumper_name name (set_Bumper_surface surface (set_Bumper_center (mkVertex2D (int32 300) (int32 400)) Bumper_default))).
Definition picture : ImageData := set_im_name (lit "Wood") (set_im_path (lit "c:\wood.png") (set_im_jpeg (Some (mkImageDataJpeg (lit "c:\wood.png") (lit "Wood") None [x01; x02])) ImageData_default)).
Definition painted (ms : list Material) (items : list GameItem) : VPX :=
  mkVPX [] TableInfo_new (Z_to_w32 1080) (set_gd_tail (set_gt_materials (Some ms) (gd_tail GameData_default)) GameData_default) items [picture] [] [] [].
Definition example_export : VPX :=
  painted [paint (lit "Red Paint") 255 0 0; paint (lit "Blue") 0 0 255]
    [target (lit "T1") (lit "red paint") (lit "wood"); GI_Wall (set_Wall_name (lit "shelf") (set_Wall_is_side_visible true (set_Wall_drag_points square (set_Wall_is_top_bottom_visible true Wall_default)))); bumper (lit "B") (lit "Shelf"); target (lit "T2") (lit "Blue") []].
Definition blocks_in (v : VPX) (o : ObjExportOptions) : list Block := match table_blocks example_tools v o with Ok bs => bs | _ => [] end.
Definition files_of (v : VPX) (o : ObjExportOptions) : option (option (list shape) * list (rstring * list mtl_line) * list (rstring * bytes)) :=
  match export_obj example_tools v o true (lit "t.mtl") with Ok s => Some (read_obj_file (ws_obj s), read_mtl_file (ws_mtl s), ws_images s) | _ => None end.
Definition heads (v : VPX) (o : ObjExportOptions) : list (rstring * option rstring * Z) :=
  match files_of v o with Some (Some l, _, _) => map (fun x => (sh_object x, sh_material x, zlen (sh_corners x))) l | _ => [] end.
Lemma example_named s : keeps_copies (et_lower (mkTools (et_sin s) (et_cos s) (et_sanitize s) kept_text (et_decompress s) (et_lzw_decode s) (et_bmp s) (et_bumper s) (et_flipper s) (et_gate s) (et_kicker s) (et_spinner s) (et_target s) (et_trigger s) (et_plunger s) (et_fuel s))).
Proof. intros base ext. exists (base ++ lit "_dedup"), (lit "." ++ ext). intros k. cbn [et_lower]. unfold kept_text. rewrite <- !app_assoc. reflexivity. Qed.
Lemma targets_only_good v o : Forall (fun i => match i with GI_HitTarget _ | GI_Bumper _ | GI_Wall _ | GI_Spinner _ => True | _ => False end) (vpx_gameitems v) -> good_items example_tools v o.
Proof.
  intros F i suffix material texture m I K P. rewrite Forall_forall in F. specialize (F i I).
  assert (G : good_mesh tri) by (unfold good_mesh, tri; cbn [fst snd]; constructor; [unfold face_within, zlen; cbn; lia|constructor]).
  destruct i; try contradiction; cbn [part_rows et_bumper et_spinner et_target example_tools] in P; repeat (destruct P as [P|P]; [try discriminate P; injection P as _ _ _ <-; exact G|]); destruct P.
Qed.
Lemma targets_exportable v : Forall (fun i => match i with GI_HitTarget _ | GI_Bumper _ | GI_Spinner _ => True | GI_Wall w => moderate_wall w | _ => False end) (vpx_gameitems v) -> Forall (exportable example_tools) (vpx_gameitems v).
Proof. apply Forall_impl. intros i. destruct i; cbn; try contradiction; trivial. Qed.
Lemma picture_decodable : Forall (decodable example_tools) [picture].
Proof. constructor; [|constructor]. intros E. discriminate E. Qed.

Example C66_total_example : let v := example_export in
  (151 <= et_fuel example_tools)%nat /\ keeps_copies (et_lower example_tools) /\ Forall (exportable example_tools) (vpx_gameitems v) /\ good_items example_tools v obj_default_options /\
  Forall (decodable example_tools) (vpx_images v) /\ zlen (vpx_gameitems v) = 4 /\ vertex_count (filter drawn (blocks_in v obj_default_options)) = 53.
Proof.
  cbv zeta. split; [unfold example_tools; cbn [et_fuel]; lia|]. split; [exact (example_named example_tools)|].
  split; [apply targets_exportable; cbn [vpx_gameitems example_export painted]; repeat first [apply Forall_nil | apply Forall_cons; [first [exact I | apply moderate_cases; vm_compute; reflexivity]|]]|].
  split; [apply targets_only_good; cbn [vpx_gameitems example_export painted]; repeat first [apply Forall_nil | apply Forall_cons; [exact I|]]|]. split; [exact picture_decodable|]. split; vm_compute; reflexivity.
Qed.
(** The shapes of this table: the playfield, the two targets, the wall in two parts, and the ring of the bumper *)
Example C66_shapes_example : exists bs s, table_blocks example_tools example_export obj_default_options = Ok bs /\ export_obj example_tools example_export obj_default_options true (lit "t.mtl") = Ok s /\
  Forall in_range bs /\ vertex_count (filter drawn bs) < 2 ^ 32 /\
  map (fun x => fst (fst x)) (heads example_export obj_default_options) =
    [lit "Table1"; lit "Table1"; lit "T1"] ++ repeat (lit "shelfSide") 16 ++ repeat (lit "shelfTop") 6 ++ [lit "BRing"; lit "T2"] /\
  map (fun e => fst e) (read_mtl_file (ws_mtl s)) = [[]; lit "redpaint__wood"; lit "Blue"] /\ ws_images s = [(lit "Wood.png", [x01; x02])].
Proof.
  destruct (C66_total example_tools example_export obj_default_options true (lit "t.mtl")) as (bs & B & R & E); try apply C66_total_example.
  assert (L : vertex_count (filter drawn bs) < 2 ^ 32) by (assert (Q : bs = blocks_in example_export obj_default_options) by (unfold blocks_in; rewrite B; reflexivity); rewrite Q; vm_compute; reflexivity).
  destruct (E L) as (s & X). exists bs, s. split; [exact B|]. split; [exact X|]. split; [exact R|]. split; [exact L|]. split; [vm_compute; reflexivity|].
  assert (Q : files_of example_export obj_default_options = Some (read_obj_file (ws_obj s), read_mtl_file (ws_mtl s), ws_images s)) by (unfold files_of; rewrite X; reflexivity).
  split.
  - transitivity (match files_of example_export obj_default_options with Some (_, m, _) => map fst m | None => [] end); [rewrite Q; reflexivity|vm_compute; reflexivity].
  - transitivity (match files_of example_export obj_default_options with Some (_, _, m) => m | None => [] end); [rewrite Q; reflexivity|vm_compute; reflexivity].
Qed.

(** ** What does not hold *)
Lemma example_exports v o : Forall (exportable example_tools) (vpx_gameitems v) -> good_items example_tools v o -> Forall (decodable example_tools) (vpx_images v) ->
  vertex_count (filter drawn (blocks_in v o)) <? 2 ^ 32 = true ->
  exists s, table_blocks example_tools v o = Ok (blocks_in v o) /\ export_obj example_tools v o true (lit "t.mtl") = Ok s /\ files_of v o = Some (read_obj_file (ws_obj s), read_mtl_file (ws_mtl s), ws_images s).
Proof.
  intros X G D L. destruct (C66_total example_tools v o true (lit "t.mtl")) as (bs & B & R & E); [unfold example_tools; cbn [et_fuel]; lia|exact (example_named example_tools)|exact X|exact G|exact D|].
  assert (Q : blocks_in v o = bs) by (unfold blocks_in; rewrite B; reflexivity). rewrite Q in *. apply Z.ltb_lt in L. destruct (E L) as (s & S). exists s. split; [exact B|]. split; [exact S|].
  unfold files_of. rewrite S. reflexivity.
Qed.
(** Two materials whose names differ in spaces only: the file describes both under one name, so the colour of one of the two parts is lost. *)
Definition two_paints : VPX := painted [paint (lit "Red Paint") 255 0 0; paint (lit "RedPaint") 0 255 0] [target (lit "T1") (lit "Red Paint") []; target (lit "T2") (lit "RedPaint") []].
Theorem C66_spaces_refuted : ~ (forall T v o checked file bs s name a b, table_blocks T v o = Ok bs -> export_obj T v o checked file = Ok s ->
  In (name, a) (read_mtl_file (ws_mtl s)) -> In (name, b) (read_mtl_file (ws_mtl s)) -> a = b).
Proof.
  intros H. destruct (example_exports two_paints obj_default_options) as (s & B & E & F).
  - apply targets_exportable; cbn [vpx_gameitems two_paints painted]; repeat first [apply Forall_nil | apply Forall_cons; [exact I|]].
  - apply targets_only_good; cbn [vpx_gameitems two_paints painted]; repeat first [apply Forall_nil | apply Forall_cons; [exact I|]].
  - exact picture_decodable.
  - vm_compute; reflexivity.
  - set (sections := match files_of two_paints obj_default_options with Some (_, m, _) => m | None => [] end).
    assert (Q : sections = read_mtl_file (ws_mtl s)) by (unfold sections; rewrite F; reflexivity).
    assert (C : forall i j, map snd (firstn 1 (skipn i sections)) = map snd (firstn 1 (skipn j sections)) \/ map fst (firstn 1 (skipn i sections)) <> map fst (firstn 1 (skipn j sections))).
    { intros i j. destruct (skipn i sections) as [|[n a] p] eqn:I1; destruct (skipn j sections) as [|[m b] q] eqn:I2; cbn [firstn map fst snd]; [left; reflexivity|right; discriminate|right; discriminate|].
      assert (J : forall k x l, skipn k sections = x :: l -> In x (read_mtl_file (ws_mtl s))) by (intros k x l K; rewrite <- Q, <- (firstn_skipn k sections), K; apply in_or_app; right; left; reflexivity).
      destruct (list_eq_dec N.eq_dec n m) as [->|D]; [left; f_equal; exact (H _ _ _ _ _ _ _ _ _ _ B E (J _ _ _ I1) (J _ _ _ I2))|right; intros [= X]; exact (D X)]. }
    specialize (C 1%nat 2%nat). vm_compute in C. destruct C as [C|C]; [discriminate C|apply C; reflexivity].
Qed.
Print Assumptions C66_spaces_refuted.
(** The ring of a bumper and the plate of a spinner are written without a material: they look like whatever part comes before them. *)
Definition before_ring (material : rstring) : VPX := painted [paint (lit "Red") 255 0 0; paint (lit "Blue") 0 0 255] [target (lit "T") material []; bumper (lit "B") []].
Theorem C66_ring_refuted : ~ (forall T v v' o s s' shapes shapes' x x' b i i', vpx_gameitems v = [i; b] -> vpx_gameitems v' = [i'; b] -> vpx_gamedata v = vpx_gamedata v' -> vpx_images v = vpx_images v' ->
  export_obj T v o true (lit "t.mtl") = Ok s -> export_obj T v' o true (lit "t.mtl") = Ok s' -> read_obj_file (ws_obj s) = Some shapes -> read_obj_file (ws_obj s') = Some shapes' ->
  last shapes x = x -> last shapes' x' = x' -> sh_object x = sh_object x' -> sh_material x = sh_material x').
Proof.
  intros H. assert (K : forall m, exists s, export_obj example_tools (before_ring m) obj_default_options true (lit "t.mtl") = Ok s /\
                                       files_of (before_ring m) obj_default_options = Some (read_obj_file (ws_obj s), read_mtl_file (ws_mtl s), ws_images s)).
  { intros m. destruct (example_exports (before_ring m) obj_default_options) as (s & B & E & F); [| | | |eauto].
    - apply targets_exportable; cbn [vpx_gameitems before_ring painted]; repeat first [apply Forall_nil | apply Forall_cons; [exact I|]].
    - apply targets_only_good; cbn [vpx_gameitems before_ring painted]; repeat first [apply Forall_nil | apply Forall_cons; [exact I|]].
    - exact picture_decodable.
    - vm_compute; reflexivity. }
  destruct (K (lit "Red")) as (s & E & F). destruct (K (lit "Blue")) as (s' & E' & F').
  set (shapes m := match files_of (before_ring m) obj_default_options with Some (Some l, _, _) => l | _ => [] end). set (none := mkShape [] None false []).
  assert (Q : forall m st, files_of (before_ring m) obj_default_options = Some (read_obj_file (ws_obj st), read_mtl_file (ws_mtl st), ws_images st) ->
            (shapes m <> []) -> read_obj_file (ws_obj st) = Some (shapes m) /\ last (shapes m) (last (shapes m) none) = last (shapes m) none).
  { intros m st FF NE. split.
    - unfold shapes in *. rewrite FF in NE |- *. destruct (read_obj_file (ws_obj st)); [reflexivity|contradiction].
    - clear -NE. induction (shapes m) as [|x l IH]; [contradiction|]. destruct l as [|y l]; [reflexivity|]. change (last (x :: y :: l)) with (last (y :: l)). apply IH. discriminate. }
  destruct (Q (lit "Red") s F) as [R L]; [vm_compute; discriminate|]. destruct (Q (lit "Blue") s' F') as [R' L']; [vm_compute; discriminate|].
  assert (O : sh_object (last (shapes (lit "Red")) none) = sh_object (last (shapes (lit "Blue")) none)) by (vm_compute; reflexivity).
  pose proof (H example_tools (before_ring (lit "Red")) (before_ring (lit "Blue")) obj_default_options s s' _ _ _ _ (bumper (lit "B") []) _ _ eq_refl eq_refl eq_refl eq_refl E E' R R' L L' O) as X.
  vm_compute in X. discriminate X.
Qed.
Print Assumptions C66_ring_refuted.
(** A wall whose top and sides are visible, but whose top could not be cut into triangles: its sides are missing too. *)
Definition jagged_shelf : Wall := set_Wall_name (lit "shelf") (set_Wall_is_top_bottom_visible true jagged_wall).
Theorem C66_wall_refuted : ~ (forall T v o bs w top side, table_blocks T v o = Ok bs -> In (GI_Wall w) (vpx_gameitems v) -> moderate_wall w -> Wall_is_side_visible w = true ->
  build_wall_meshes (et_fuel T) w (table_dimensions v) = Ok (Some (mkWallMeshes top (Some side))) -> exists b, In b bs /\ bl_faces b = snd side /\ exists suffix, bl_name b = Wall_name w ++ suffix).
Proof.
  intros H. set (v := painted [] [GI_Wall jagged_shelf]). assert (B : table_blocks example_tools v obj_default_options = Ok [playfield_block v]) by (vm_compute; reflexivity).
  assert (M : moderate_wall jagged_shelf) by (apply moderate_cases; vm_compute; reflexivity).
  assert (E : exists top side, build_wall_meshes (et_fuel example_tools) jagged_shelf (table_dimensions v) = Ok (Some (mkWallMeshes top (Some side)))) by (eexists _, _; vm_compute; reflexivity).
  destruct E as (top & side & E). destruct (H example_tools v obj_default_options _ jagged_shelf top side B (or_introl eq_refl) M eq_refl E) as (b & [<-|[]] & _ & suffix & N).
  vm_compute in N. discriminate N.
Qed.
Print Assumptions C66_wall_refuted.
(** In strict mode *)
Example C66_strict_example : exists s, export_obj example_tools example_export vpinball_strict true (lit "t.mtl") = Ok s /\
  map fst (read_mtl_file (ws_mtl s)) = [[]; lit "redpaint"; []; lit "Blue"] /\ ws_images s = [] /\ zlen (filter drawn (blocks_in example_export vpinball_strict)) = 5.
Proof. eexists. split; [vm_compute; reflexivity|]. split; [vm_compute; reflexivity|]. split; vm_compute; reflexivity. Qed.

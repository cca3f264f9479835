(** C53: extracting a table into a directory and assembling it again. *)
From Coq Require Import Permutation.
From Verif Require Import Base Text Biff Quantize Common Enums ItemPrimitive ItemWall StructMaterial Structs GameItem GameData Image Sound Cfb
  TableInfo Vpx FileSystem ExpandedItems SpecExpanded ExpandedAssets SpecAssets JsonFloat Json SpecJson SpecJsonRecords JsonGameItem SpecJsonGameItem
  JsonStructs SpecJsonStructs JsonGameData SpecJsonGameData Mesh SpecMesh Gltf SpecGltf Extract SpecExtract.
From Verif Require Import ExtractFacts ExampleToolbox PropertiesMesh PropertiesAssets PropertiesJsonItems PropertiesJsonStructs.

(** A table extracted into an empty directory, with meshes as OBJ, GLB or glTF files, and assembled again is the table, up to what is
    computed anew. *)
Theorem C53_round_trip : forall B m v t, toolbox_ok B -> extractable B m v -> write_fs B m v empty_tree = Ok t ->
  exists v', read_fs B t = Ok v' /\ same_lists B v v' /\ same_data v v' /\
    (counts_agree v -> materials_agree (gd_tail (vpx_gamedata v)) -> vpx_gamedata v' = vpx_gamedata v).
Proof.
  intros B m v t ok X W. destruct (assembled B m v t X (written B ok m v t X W)) as (v' & R & L & D & _ & _ & E). exists v'. auto.
Qed.
Print Assumptions C53_round_trip.
(** Extracting succeeds unless names of images or sounds are not valid file names, or look like names made up for duplicates. *)
Theorem C53_written : forall B m v, toolbox_ok B -> extractable B m v -> ordinary_names B v -> exists t, write_fs B m v empty_tree = Ok t.
Proof. intros B m v ok X N. exact (write_succeeds B ok m v X N). Qed.
Print Assumptions C53_written.
(** Whatever directory is assembled, the counts in the table are those of its lists, and the materials of older versions are those
    computed from the materials. *)
Theorem C53_recomputed : forall B t v, read_fs B t = Ok v -> counts_agree v /\ materials_agree (gd_tail (vpx_gamedata v)).
Proof. exact recomputed. Qed.
Print Assumptions C53_recomputed.
(** The version, the game data and the script must be there; lists whose index is missing are empty. *)
Theorem C53_required : forall B t v, read_fs B t = Ok v ->
  (forall name, In name ["version.txt"; "gamedata.json"; "script.vbs"]%string -> hget (lit name) (t_root t) <> None) /\
  (hget (lit "collections.json") (t_root t) = None -> vpx_collections v = []) /\ (hget (lit "gameitems.json") (t_root t) = None -> vpx_gameitems v = []) /\
  (hget (lit "images.json") (t_root t) = None -> vpx_images v = []) /\ (hget (lit "sounds.json") (t_root t) = None -> vpx_sounds v = []) /\
  (hget (lit "fonts.json") (t_root t) = None -> vpx_fonts v = []) /\
  (hget (lit "info.json") (t_root t) = None -> vpx_info v = TableInfo_new /\ vpx_custominfotags v = []).
Proof. exact required_files. Qed.
Print Assumptions C53_required.

(** Items are never overwritten: extracting a table with items again to the same place is an error, whatever the mesh formats. *)
Theorem C53_twice : forall B m m' v t, toolbox_ok B -> write_fs B m v empty_tree = Ok t -> vpx_gameitems v <> [] -> write_fs B m' v t = Err.
Proof. intros B m m' v t ok. exact (written_twice B ok m m' v t). Qed.
Print Assumptions C53_twice.

(** ** A table that meets the conditions *)
Definition example_primitive : Primitive :=
  set_Primitive_compressed_vertices_len (Some (Z_to_w32 64)) (set_Primitive_compressed_vertices_data (Some (w_bytes vertex_a ++ w_bytes vertex_b))
  (set_Primitive_num_vertices (Some (Z_to_w32 2))
  (set_Primitive_compressed_indices_len (Some (Z_to_w32 6)) (set_Primitive_compressed_indices_data (Some [x00; x00; x01; x00; x01; x00])
  (set_Primitive_num_indices (Some (Z_to_w32 3))
  (set_Primitive_compressed_animation_vertices_len (Some [Z_to_w32 24]) (set_Primitive_compressed_animation_vertices_data (Some [write_frame_vertex frame_a])
  (set_Primitive_name (lit "Ball") Primitive_default)))))))).
Definition example_table : VPX :=
  mkVPX [lit "Genre"] example_info (Z_to_w32 1080)
    (set_gd_tail (set_gt_name (lit "Table") (set_gt_code (swe_of_bytes [x41; xe9; x42]) (set_gt_materials (Some [Material_default]) GDTail_default))) GameData_default)
    [example_flipper; GI_Primitive example_primitive; GI_Wall Wall_default; GI_Primitive (set_Primitive_name (lit "ball") Primitive_default)]
    [image_file (lit "A") [x89; x50]; image_bitmap (lit "a") [x01; x02; x03; xff]; image_link (lit "a")]
    [sound_called (lit "Coin") [x01]; sound_called (lit "coin") [x02]]
    [mkFontData (lit "Arial") (lit "c:\fonts\arial.ttf") [x01]; mkFontData (lit "Arial") (lit "c:\fonts\arial.otf") [x02]]
    [mkCollection (lit "Lamps") [lit "Ball"] true false true].
Example C53_example : toolbox_ok toy /\ (forall m, extractable toy m example_table) /\ ordinary_names toy example_table.
Proof.
  split; [exact toy_ok|].
  assert (PL : forall p k, p ++ lit "_anim_" ++ dec_text k <> lit "Ball" /\ p ++ lit "_anim_" ++ dec_text k <> lit "ball").
  { intros p k. assert (M : In 95%N (p ++ lit "_anim_" ++ dec_text k)) by (apply in_or_app; right; left; reflexivity).
    split; intros E; rewrite E in M; cbn in M; repeat (destruct M as [M|M]; [discriminate M|]); exact M. }
  destruct C50_example as (F1 & _ & F2 & F3 & _). destruct C32_images_used as (I1 & I2 & _). destruct C32_sounds_used as (S1 & S2 & _).
  split; [intros m; split; [exact (proj1 (proj2 (proj2 (proj2 (proj2 C45_example)))))|split; [|split; [exact I1|split; [|split; [|split]]]]]|].
  - constructor; [split; [exact F1|exact I]|]. constructor; [|constructor; [split; [exact F3|exact I]|constructor; [|constructor]]].
    + split; [exact F2|]. split; [split; [intros p k E; exact (proj1 (PL p k) (eq_sym E))|discriminate]|].
      exists (Some ([vertex_a; vertex_b], [mkFace 0 1 1])), [[frame_a]]. split; [vm_compute; reflexivity|]. split; [split; [reflexivity|repeat constructor]|].
      split; [|constructor; [|constructor]; split; [repeat constructor|reflexivity]]. destruct m.
      * split; [intros vs fs; apply read_printed_obj|]. constructor; [repeat constructor|constructor].
      * split; [constructor; [repeat constructor|constructor]|]. constructor; [vm_compute; reflexivity|]. constructor; [vm_compute; reflexivity|constructor].
      * constructor; [repeat constructor|constructor].
    + split; [exact F2|]. split; [split; [intros p k E; exact (proj2 (PL p k) (eq_sym E))|discriminate]|].
      exists None, []. repeat split.
  - repeat (constructor; [vm_compute; reflexivity|]). constructor.
  - inversion S2 as [|? ? H1 S3]; subst. inversion S3 as [|? ? H2 S4]; subst. constructor; [exact H1|constructor; [exact H2|constructor]].
  - vm_compute. repeat (constructor; [cbn; intuition discriminate|]). constructor.
  - split; [|split; [eexists; reflexivity|split; [|split; [discriminate|exact I]]]].
    + repeat lazymatch goal with
        | |- _ /\ _ => split
        | |- finite _ => vm_compute; reflexivity
        | |- for_some _ _ => first [exact I | vm_compute; reflexivity]
        | |- List.length _ = _ => reflexivity
        | |- _ => red
        end.
    + constructor; [exact (proj1 (proj2 C45_example))|constructor].
  - destruct C32_oracles as (O1 & O2). split; [exact O1|]. split; [exact O2|]. split; [exact I2|].
    inversion S1 as [|? ? H1 S3]; subst. inversion S3 as [|? ? H2 S4]; subst. constructor; [exact H1|constructor; [exact H2|constructor]].
Qed.

(** ** Without the conditions *)
Definition assembled_after (v : VPX) (t : tree) (P : VPX -> bool) : bool :=
  match write_fs toy FmtObj v t with Ok t => match read_fs toy t with Ok v' => P v' | _ => false end | _ => false end.
Lemma assembled_after_gives v t P : assembled_after v t P = true -> exists t' v', write_fs toy FmtObj v t = Ok t' /\ read_fs toy t' = Ok v' /\ P v' = true.
Proof.
  unfold assembled_after. destruct (write_fs toy FmtObj v t) as [t'|]; [|discriminate]. destruct (read_fs toy t') as [v'|] eqn:R; [|discriminate].
  intros H. exists t', v'. auto.
Qed.
(** FINDING: files that a table does not need are not removed.  A table without a screenshot, extracted to where another table was,
    gets the screenshot and the materials of the other one. *)
Definition empty_table (info : TableInfo) : VPX := mkVPX [] info (Z_to_w32 1080) GameData_default [] [] [] [] [].
Theorem C53_reused_directory_refuted : exists v t t' v', toolbox_ok toy /\ extractable toy FmtObj v /\ write_fs toy FmtObj v t = Ok t' /\ read_fs toy t' = Ok v' /\
  ti_screenshot (vpx_info v) = None /\ ti_screenshot (vpx_info v') <> None /\
  gt_materials (gd_tail (vpx_gamedata v)) = None /\ gt_materials (gd_tail (vpx_gamedata v')) <> None.
Proof.
  exists (empty_table TableInfo_new).
  set (t := match write_fs toy FmtObj example_table empty_tree with Ok t => t | _ => empty_tree end). exists t.
  destruct (assembled_after_gives (empty_table TableInfo_new) t
    (fun v' => match ti_screenshot (vpx_info v'), gt_materials (gd_tail (vpx_gamedata v')) with Some _, Some _ => true | _, _ => false end)) as (t' & v' & W & R & P).
  { vm_compute. reflexivity. }
  exists t', v'. split; [exact toy_ok|]. split; [|split; [exact W|split; [exact R|]]].
  - split; [split; constructor|]. do 5 (split; [constructor|]).
    split; [|split; [exists []; reflexivity|split; [exact I|split; [constructor|exact I]]]].
    repeat lazymatch goal with
        | |- _ /\ _ => split
        | |- finite _ => vm_compute; reflexivity
        | |- for_some _ _ => first [exact I | vm_compute; reflexivity]
        | |- List.length _ = _ => reflexivity
        | |- _ => red
        end.
  - split; [reflexivity|]. destruct (ti_screenshot (vpx_info v')); [|discriminate P]. split; [discriminate|]. split; [reflexivity|].
    destruct (gt_materials _); [discriminate|discriminate P].
Qed.
Print Assumptions C53_reused_directory_refuted.
(** FINDING: the animation frames of a primitive without a mesh are lost. *)
Theorem C53_frames_without_mesh_refuted : exists p t v' p', toolbox_ok toy /\
  write_fs toy FmtObj (mkVPX [] TableInfo_new (Z_to_w32 1080) GameData_default [GI_Primitive p] [] [] [] []) empty_tree = Ok t /\ read_fs toy t = Ok v' /\
  vpx_gameitems v' = [GI_Primitive p'] /\ Primitive_compressed_animation_vertices_data p <> None /\ Primitive_compressed_animation_vertices_data p' = None.
Proof.
  set (p := set_Primitive_compressed_animation_vertices_len (Some [Z_to_w32 24]) (set_Primitive_compressed_animation_vertices_data (Some [write_frame_vertex frame_a]) Primitive_default)).
  exists p. destruct (assembled_after_gives (mkVPX [] TableInfo_new (Z_to_w32 1080) GameData_default [GI_Primitive p] [] [] [] []) empty_tree
    (fun v' => match vpx_gameitems v' with [GI_Primitive p'] => match Primitive_compressed_animation_vertices_data p' with None => true | _ => false end | _ => false end)) as (t & v' & W & R & P).
  { vm_compute. reflexivity. }
  exists t, v'. destruct (vpx_gameitems v') as [|i [|]] eqn:E; try discriminate P; [|destruct i; discriminate P].
  destruct i as [v|v|v|v|v|v|v|v|v|v|v|v|v|v|v|p'|v|v|v|v|v|y g]; try discriminate P. exists p'.
  destruct (Primitive_compressed_animation_vertices_data p') eqn:E'; [discriminate P|]. repeat (split; [first [exact toy_ok|exact W|exact R|reflexivity|discriminate]|]). reflexivity.
Qed.
Print Assumptions C53_frames_without_mesh_refuted.

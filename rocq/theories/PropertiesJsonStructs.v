(** C45 and C52: materials, render probes, collections, the table information, the entries of the indices, and the game data as JSON. *)
From Coq Require Import Permutation.
From Verif Require Import Base Text Biff Common Enums EnumsFacts GDBounds GDDesktop GDCabinet GDPhysics GDScene StructMaterial StructRenderProbe Structs GameData
  Image Sound TableInfo ExpandedAssets JsonFloat SpecJson Json SpecJsonRecords JsonItems JsonFacts PropertiesJsonItems
  JsonStructs SpecJsonStructs JsonStructsFacts JsonGameData SpecJsonGameData JsonGameDataFacts.

(** C45: materials in all three forms *)
Theorem C45_materials : forall (L : json_lib), lib_ok L ->
  (forall m, Material_finite m -> restores jc_Material m) /\ (forall m, SaveMaterial_finite m -> restores jc_SaveMaterial m) /\
  (forall m, restores jc_SavePhysicsMaterial m).
Proof. intros L lib. exact (conj (restores_Material lib) (conj (restores_SaveMaterial lib) (restores_SavePhysicsMaterial lib))). Qed.
Print Assumptions C45_materials.
(** C45: render probes, with the data that follows them *)
Theorem C45_render_probes : forall (L : json_lib), lib_ok L -> forall p, RenderProbe_finite p -> restores jc_RenderProbe p.
Proof. intros L lib. exact (restores_RenderProbe lib). Qed.
Print Assumptions C45_render_probes.
Theorem C45_collections : forall (L : json_lib) l, restores (jc_list jc_Collection) l.
Proof. intros L l. apply restores_list, Forall_forall. intros c _. exact (restores_Collection c). Qed.
Print Assumptions C45_collections.
(** C45: the table information; its screenshot is a file of its own *)
Theorem C45_table_info : forall (L : json_lib) t tags, info_is_map t ->
  jc_of jc_TableInfo (jc_to jc_TableInfo (t, tags)) = Ok (set_ti_screenshot None t, tags).
Proof. intros L. exact json_TableInfo. Qed.
Print Assumptions C45_table_info.
(** C45: the entries of the indices of sounds, fonts and images, without what the side files hold.  The size of an image and its
    bitmap are read from elsewhere. *)
Theorem C45_sounds : forall (L : json_lib) s,
  (j <~ jc_of jc_SoundDataJson (jc_to jc_SoundDataJson (SoundDataJson_of s)) ;; Ok (SoundDataJson_to j)) = Ok (sound_entry s).
Proof. intros L. exact json_sound. Qed.
Print Assumptions C45_sounds.
Theorem C45_fonts : forall (L : json_lib) f,
  (j <~ jc_of jc_FontDataJson (jc_to jc_FontDataJson (FontDataJson_of f)) ;; Ok (FontDataJson_to j)) = Ok (font_entry f).
Proof. intros L. exact json_font. Qed.
Print Assumptions C45_fonts.
Theorem C45_images : forall (L : json_lib), lib_ok L -> forall v, image_regular v ->
  (j <~ jc_of jc_ImageDataJson (jc_to jc_ImageDataJson (ImageDataJson_of v)) ;; Ok (ImageDataJson_to j (im_width v) (im_height v) (im_bits v)))
  = Ok (image_entry v).
Proof. intros L lib. exact (json_image lib). Qed.
Print Assumptions C45_images.
(** ... and the whole entry of an index, with the file name and the size *)
Theorem C45_indices : forall (L : json_lib), lib_ok L ->
  (forall s, restores jc_SoundDataJson s) /\ (forall f, restores jc_FontDataJson f) /\
  (forall i, for_some finite (aj_alpha_test_value i) -> restores jc_ImageDataJson i).
Proof. intros L lib. exact (conj restores_SoundDataJson (conj restores_FontDataJson (restores_ImageDataJson lib))). Qed.
Print Assumptions C45_indices.

Definition example_info : TableInfo :=
  mkTableInfo (Some (lit "Funhouse")) None (Some [x89; x50]) None (Some []) None None None None None None None
    [(lit "Genre", lit "Pinball"); ([0xe9%N; 0x1f3b1%N], [])].
Definition example_image : ImageData :=
  mkImageData (lit "a") (Some (lit "A")) (lit "c:\a.png") (Z_to_w32 640) (Z_to_w32 480) None f32_0 (Some true) None
    (Some (mkImageDataJpeg (lit "c:\b.png") (lit "a") None [x01])) None (Some (repeat x5a 16)).
Example C45_example : lib_ok example_lib /\ Material_finite Material_default /\
  SaveMaterial_finite (mkSaveMaterial (lit "m") (mkColor xff x01 x02 x00) (mkColor x00 x01 x02 x00) (mkColor x00 x01 x02 x00) f32_0 true f32_0 x01 f32_0 x02 f32_0 x03) /\
  RenderProbe_finite (mkRenderProbeG RenderProbe_default [x01; x02]) /\ info_is_map example_info /\ image_regular example_image.
Proof.
  split; [exact C50_oracles|].
  assert (E : forall a b : Prop, (a -> False) -> (b -> False) -> (False <-> a \/ b)) by tauto.
  repeat lazymatch goal with
    | |- _ /\ _ => split
    | |- finite _ => vm_compute; reflexivity
    | |- NoDup _ => apply NoDup_cons; [intros [H|[]]; discriminate H | apply NoDup_cons; [intros [] | apply NoDup_nil]]
    | |- Forall _ _ => repeat apply Forall_cons; try apply Forall_nil; reflexivity
    | |- _ <-> _ => split; [discriminate | intros [H|H]; discriminate H]
    | |- zlen _ = _ => reflexivity
    | |- _ => red
    end.
Qed.

(** Without the conditions the property fails.  An alpha test value that is not a number comes back as -1. *)
Theorem C45_alpha_refuted : exists v, im_alpha_test_value v = a_nan /\ forall (L : json_lib), lib_ok L ->
  (j <~ jc_of jc_ImageDataJson (jc_to jc_ImageDataJson (ImageDataJson_of v)) ;;
   Ok (im_alpha_test_value (ImageDataJson_to j (im_width v) (im_height v) (im_bits v)))) = Ok ALPHA_TEST_VALUE_DEFAULT.
Proof.
  exists (mkImageData (lit "a") None (lit "a.png") (Z_to_w32 1) (Z_to_w32 1) None a_nan None None (Some (mkImageDataJpeg [] [] None [])) None None).
  split; [reflexivity|]. intros L lib. cbn [ImageDataJson_of im_jpeg]. vm_compute. reflexivity.
Qed.
Print Assumptions C45_alpha_refuted.
(** A file kept for an image whose path ends in .bmp is forgotten. *)
Theorem C45_bmp_file_refuted : exists v, im_jpeg v <> None /\ forall (L : json_lib), lib_ok L ->
  (j <~ jc_of jc_ImageDataJson (jc_to jc_ImageDataJson (ImageDataJson_of v)) ;;
   Ok (im_jpeg (ImageDataJson_to j (im_width v) (im_height v) (im_bits v)))) = Ok None.
Proof.
  exists (mkImageData (lit "a") None (lit "a.bmp") (Z_to_w32 1) (Z_to_w32 1) None ALPHA_TEST_VALUE_DEFAULT None None (Some (mkImageDataJpeg [] [] None [])) None None).
  split; [discriminate|]. intros L lib. rewrite (restores_ImageDataJson lib) by exact I. reflexivity.
Qed.
Print Assumptions C45_bmp_file_refuted.

(** C52: the game data without the script, the materials, the render probes and the counts, which are in other files *)
Theorem C52_game_data : forall (L : json_lib), lib_ok L -> forall g, GameData_finite g ->
  jc_of jc_GameData (jc_to jc_GameData g) = Ok (GameData_json_part g).
Proof. intros L lib. exact (json_GameData lib). Qed.
Print Assumptions C52_game_data.
Example C52_example : exists g, GameData_finite g /\ GameData_json_part g <> g /\ gt_name (gd_tail (GameData_json_part g)) = lit "Table".
Proof.
  exists (set_gd_tail (set_gt_name (lit "Table") (set_gt_sounds_size (Z_to_w32 7) GDTail_default)) GameData_default).
  split; [|split; [|reflexivity]]; [|intros H; apply (f_equal (fun g => w32_to_Z (gt_sounds_size (gd_tail g)))) in H; discriminate H].
  repeat lazymatch goal with
    | |- _ /\ _ => split
    | |- finite _ => vm_compute; reflexivity
    | |- for_some _ _ => first [exact I | vm_compute; reflexivity]
    | |- List.length _ = _ => reflexivity
    | |- _ => red
    end.
Qed.
(** Two tables with the same game data file differ at most in what the other files hold. *)
Theorem C52_nothing_lost : forall (L : json_lib), lib_ok L -> forall g h, GameData_finite g -> GameData_finite h ->
  jc_to jc_GameData g = jc_to jc_GameData h -> GameData_json_part g = GameData_json_part h.
Proof.
  intros L lib g h Hg Hh E. pose proof (json_GameData lib g Hg) as A. rewrite E, (json_GameData lib h Hh) in A. congruence.
Qed.
Print Assumptions C52_nothing_lost.

(** C51, for these files: the order of the keys does not matter, and neither do further keys. *)
Theorem C51_structs : forall (L : json_lib) o o', edited_by_hand struct_keys o o' ->
  jc_of jc_Material (Jobj o') = jc_of jc_Material (Jobj o) /\ jc_of jc_SaveMaterial (Jobj o') = jc_of jc_SaveMaterial (Jobj o) /\
  jc_of jc_SavePhysicsMaterial (Jobj o') = jc_of jc_SavePhysicsMaterial (Jobj o) /\ jc_of jc_RenderProbe (Jobj o') = jc_of jc_RenderProbe (Jobj o) /\
  jc_of jc_Collection (Jobj o') = jc_of jc_Collection (Jobj o) /\ jc_of jc_TableInfo (Jobj o') = jc_of jc_TableInfo (Jobj o) /\
  jc_of jc_SoundDataJson (Jobj o') = jc_of jc_SoundDataJson (Jobj o) /\ jc_of jc_ImageDataJson (Jobj o') = jc_of jc_ImageDataJson (Jobj o) /\
  jc_of jc_FontDataJson (Jobj o') = jc_of jc_FontDataJson (Jobj o).
Proof.
  intros L o o' E.
  exact (conj (loose_Material o o' E) (conj (loose_SaveMaterial o o' E) (conj (loose_SavePhysicsMaterial o o' E) (conj (loose_RenderProbe o o' E)
    (conj (loose_Collection o o' E) (conj (loose_TableInfo o o' E) (conj (loose_SoundDataJson o o' E)
    (conj (loose_ImageDataJson o o' E) (loose_FontDataJson o o' E))))))))).
Qed.
Print Assumptions C51_structs.
Theorem C51_game_data : forall (L : json_lib) o o', edited_by_hand game_data_keys o o' ->
  jc_of jc_GameData (Jobj o') = jc_of jc_GameData (Jobj o).
Proof. intros L. exact (loose_GameData). Qed.
Print Assumptions C51_game_data.
(** A sound without the internal name is understood. *)
Theorem C51_sound_internal_name : forall (L : json_lib), lib_ok L -> forall s,
  jc_of jc_SoundDataJson (Jobj (present [
      put "name" jc_string (sj_name s); put "path" jc_string (sj_path s); put "fade" jc_u32 (sj_fade s); put "volume" jc_u32 (sj_volume s);
      put "balance" jc_u32 (sj_balance s); put "output_target" jc_OutputTarget (sj_output_target s)]))
  = Ok (mkSoundDataJson (sj_name s) (sj_path s) [] (sj_fade s) (sj_volume s) (sj_balance s) (sj_output_target s) None).
Proof.
  intros L lib s. cbn [jc_SoundDataJson jc_record jc_of fields_of rbind].
  assert (R : forall w, jc_of jc_u32 (jc_to jc_u32 w) = Ok w) by exact restores_u32.
  eapply bind_ok; [reflexivity|cbv beta]. eapply bind_ok; [reflexivity|cbv beta]. eapply bind_ok; [reflexivity|cbv beta].
  eapply bind_ok; [exact (R _)|cbv beta]. eapply bind_ok; [exact (R _)|cbv beta]. eapply bind_ok; [exact (R _)|cbv beta].
  eapply bind_ok; [exact (JsonItemsFacts.restores_OutputTarget _)|cbv beta]. reflexivity.
Qed.
Print Assumptions C51_sound_internal_name.

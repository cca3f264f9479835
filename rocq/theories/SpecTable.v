(** Which tables can be stored in a file: the specification used by the statements about whole tables. *)
From Verif Require Import Base Text Biff Common Structs GameItem GameData GDBounds Image Sound Cfb TableInfo Vpx.
From Verif Require Import GameItemFacts GameItemStored GameDataFacts.
From Verif Require Import SpecBiff SpecStructs SpecImage SpecSound SpecVpx.

(** The five counters in the game data are the numbers of items, images, sounds, fonts and collections. *)
Definition counts_agree (v : VPX) : Prop :=
  let t := gd_tail (vpx_gamedata v) in
  w32_to_Z (gt_gameitems_size t) = zlen (vpx_gameitems v) /\ w32_to_Z (gt_images_size t) = zlen (vpx_images v) /\
  w32_to_Z (gt_sounds_size t) = zlen (vpx_sounds v) /\ w32_to_Z (gt_fonts_size t) = zlen (vpx_fonts v) /\
  w32_to_Z (gt_collections_size t) = zlen (vpx_collections v).
Definition font_fits (x : FontData) : Prop := string_fits (fo_name x) /\ string_fits (fo_path x) /\ data_fits (fo_data x).
Definition collection_fits (x : Collection) : Prop := wide_fits (co_name x) /\ Forall wide_fits (co_items x).
(** Game data without the values of C17 that are not read back equal. *)
Definition game_data_survives (version : Z) (g : GameData) : Prop :=
  gt_materials (gd_tail g) <> Some [] /\ gt_render_probes (gd_tail g) <> Some [] /\
  (gd_beta g = true -> version = 1080 /\ gd_bg_enable_fss g <> None) /\
  (version = 1080 -> gd_bg_enable_fss g <> None -> GDBounds_camera_layout_mode (gd_bounds g) <> None -> gd_beta g = true).
(** A table that can be written: every part can be written on its own, the counters are right, and the custom info tags are
    names. *)
Definition table_fits (up : N -> N) (v : VPX) : Prop :=
  Forall (fun s => string_fits s /\ plain_component s) (vpx_custominfotags v) /\
  info_fits up (vpx_info v) /\
  storable (vpx_gamedata v) /\
  Forall (fun i => GI_writable i = true /\ GameItem_ok (GI_stored i) = true) (vpx_gameitems v) /\
  Forall (fun i => image_fits i /\ one_kind i) (vpx_images v) /\
  Forall sound_fits (vpx_sounds v) /\
  Forall font_fits (vpx_fonts v) /\
  Forall collection_fits (vpx_collections v) /\
  counts_agree v.
(** What the file keeps of a table: see C07, C11 and C17 for the three functions. *)
Definition stored_table (info : TableInfo) (v : VPX) : VPX :=
  let version := w32_to_Z (vpx_version v) in
  mkVPX (vpx_custominfotags v) info (vpx_version v) (GameData_stored version (vpx_gamedata v)) (map GI_stored (vpx_gameitems v))
    (vpx_images v) (map (kept_at version) (vpx_sounds v)) (vpx_fonts v) (vpx_collections v).
(** A table with nothing that is lost. *)
Definition table_survives (v : VPX) : Prop :=
  let version := w32_to_Z (vpx_version v) in
  game_data_survives version (vpx_gamedata v) /\ Forall (fun i => GameItem_ok i = true) (vpx_gameitems v) /\
  Forall (fun s => kept_at version s = s) (vpx_sounds v).
Definition with_info (info : TableInfo) (v : VPX) : VPX :=
  mkVPX (vpx_custominfotags v) info (vpx_version v) (vpx_gamedata v) (vpx_gameitems v) (vpx_images v) (vpx_sounds v) (vpx_fonts v)
    (vpx_collections v).

(** The entries of a table file with the given streams, in the order in which they are written. *)
Fixpoint numbered (prefix : string) (i : N) (ds : list bytes) : cfile :=
  match ds with [] => [] | d :: ds' => ([GameStg; lit prefix ++ dec_text i], Stream d) :: numbered prefix (i + 1) ds' end.
Definition table_file (tags : bytes) (info : TableInfo) (version gamedata : bytes) (items images sounds fonts collections : list bytes)
    (mac : bytes) : cfile :=
  [([GameStg], Storage); ([GameStg; lit "CustomInfoTags"], Stream tags); ([TableInfoStg], Storage)] ++
  map (fun e => ([TableInfoStg; fst e], Stream (snd e))) (info_entries info) ++
  [([GameStg; lit "Version"], Stream version); ([GameStg; lit "GameData"], Stream gamedata)] ++
  numbered "GameItem" 0 items ++ numbered "Image" 0 images ++ numbered "Sound" 0 sounds ++ numbered "Font" 0 fonts ++
  numbered "Collection" 0 collections ++ [([GameStg; lit "MAC"], Stream mac)].

(** ** Editing a table in memory *)
(** Names that differ in the case of the letters A to Z only. *)
Definition ascii_lower_case (s : rstring) : rstring := map (fun c => if ((65 <=? c) && (c <=? 90))%N then (c + 32)%N else c) s.
Definition same_image_name (a b : ImageData) : Prop := ascii_lower_case (im_name a) = ascii_lower_case (im_name b).
(** No two images have the same name. *)
Definition image_names_differ (v : VPX) : Prop := NoDup (map (fun i => ascii_lower_case (im_name i)) (vpx_images v)).
Definition with_images (images : list ImageData) (v : VPX) : VPX :=
  mkVPX (vpx_custominfotags v) (vpx_info v) (vpx_version v) (vpx_gamedata v) (vpx_gameitems v) images (vpx_sounds v) (vpx_fonts v)
    (vpx_collections v).
Definition with_game_data (g : GameData) (v : VPX) : VPX :=
  mkVPX (vpx_custominfotags v) (vpx_info v) (vpx_version v) g (vpx_gameitems v) (vpx_images v) (vpx_sounds v) (vpx_fonts v)
    (vpx_collections v).
Inductive edit := AddItem (i : GameItem) | AddImage (i : ImageData) | SetScript (s : rstring).
Definition run_edit (checked : bool) (e : edit) (v : VPX) : res VPX :=
  match e with
  | AddItem i => Ok (add_game_item i v)
  | AddImage i => r <~ add_or_replace_image checked i v ;; Ok (fst r)
  | SetScript s => Ok (set_script s v)
  end.
Fixpoint run_edits (checked : bool) (es : list edit) (v : VPX) : res VPX :=
  match es with [] => Ok v | e :: es' => v <~ run_edit checked e v ;; run_edits checked es' v end.
Definition edit_fits (e : edit) : Prop :=
  match e with
  | AddItem i => GI_writable i = true /\ GameItem_ok (GI_stored i) = true
  | AddImage i => image_fits i /\ one_kind i
  | SetScript s => Forall scalar_value s /\ ~ In 0%N s /\ size_fits (zlen (utf8_encode s))
  end.
(** There is room for [n] more items and images. *)
Definition room (n : Z) (v : VPX) : Prop := zlen (vpx_gameitems v) + n < 2 ^ 32 /\ zlen (vpx_images v) + n < 2 ^ 32.

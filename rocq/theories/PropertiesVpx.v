(** C16, C23, C27, C28, C43, C44, C48: table information, whole tables, locking, the message authentication code, editing.

    In all statements [up] maps characters outside ASCII to upper case (for comparing stream names), [order] is the order in
    which a storage lists its entries, and [md2] is the hash function: all three are arbitrary. *)
From Coq Require Import Permutation.
From Verif Require Import Base Text Biff Quantize Common Enums Structs GDBounds GameItem GameData Image Sound Cfb TableInfo Vpx.
From Verif Require Import SpecBiff SpecStructs SpecImage SpecSound SpecVpx SpecTable.
From Verif Require Import StructsProps GameDataFacts GameItemFacts GameItemStored SoundFacts MacFacts TableFacts EditFacts OpsFacts VpxProps.
From Verif Require Import PropertiesItems PropertiesGameData PropertiesImage PropertiesSound.

(** A table with every kind of content. *)
Definition example_info : TableInfo :=
  set_ti_table_save_date (Some (lit "yesterday")) (set_ti_author_name (Some [0x1F600]%N) (set_ti_screenshot (Some [x89; x50])
    (set_ti_table_name (Some (lit "Example")) (mkTableInfo None None None None None None None None None None None None
       [(lit "Credits", lit "many"); (lit "Patch", [])])))).
Definition example_counted (g : GameData) : GameData :=
  set_gd_tail (set_gt_gameitems_size (Z_to_w32 2) (set_gt_images_size (Z_to_w32 1) (set_gt_sounds_size (Z_to_w32 1)
    (set_gt_fonts_size (Z_to_w32 1) (set_gt_collections_size (Z_to_w32 1) (gd_tail g)))))) g.
Definition example_font : FontData := mkFontData (lit "Arial") (lit "C:\fonts\arial.ttf") [x00; x01].
Definition example_table (info : TableInfo) (tags : list rstring) (items : list GameItem) : VPX :=
  mkVPX tags info (Z_to_w32 1080) (example_counted example_game_data) items
    [example_image None (Some example_jpeg)] [example_sound (lit "Coin.wav") [x01; x02]] [example_font]
    [mkCollection (lit "lights") [lit "Wall1"; lit "L2"] true false true].
Example example_table_fits : forall up info tags, info_fits up info -> Forall (fun s => string_fits s /\ plain_component s) tags ->
  forall item, GameItem_ok item = true -> GI_writable item = true -> GI_stored item = item ->
  table_fits up (example_table info tags [example_wall; item]).
Proof.
  intros up info tags HI HT item H1 H2 H3. split; [exact HT|]. split; [exact HI|]. split; [|split; [|split; [|split; [|split; [|split]]]]].
  - destruct example_game_data_storable as (A & B & C & D). split; [exact A|]. split; [exact B|]. split; [exact C|exact D].
  - constructor; [split; vm_compute; reflexivity|]. constructor; [|constructor]. rewrite H3. auto.
  - constructor; [exact C10_example_file|constructor].
  - constructor; [apply sound_fits_iff; vm_compute; reflexivity|constructor].
  - constructor; [|constructor]. repeat split; try (vm_compute; reflexivity); repeat constructor; vm_compute; discriminate.
  - constructor; [|constructor]. split; [apply wide_fits_iff; reflexivity|]. repeat constructor; apply wide_fits_iff; reflexivity.
  - repeat split.
Qed.
Definition example_v : VPX := example_table example_info [lit "Credits"; lit "Patch"] [example_wall; example_ball].
Example example_info_fits : forall up, info_fits up example_info.
Proof.
  intros up. unfold info_fits, text_ok, example_info.
  assert (SC : forall s, forallb (fun c => (c <? 0xD800) || (0xDFFF <? c) && (c <? 0x110000))%N s = true -> Forall scalar_value s).
  { intros s H. apply Forall_forall. intros c Hc. apply (proj1 (forallb_forall _ _) H) in Hc. unfold scalar_value. lia. }
  assert (NM : forall s, forallb (fun c => negb (existsb (N.eqb c) [47; 92; 58; 33]%N)) s = true -> s <> [] -> s <> lit "." -> s <> lit ".." ->
    zlen (encode_utf16le s) <= 62 -> stream_name s).
  { intros s H N1 N2 N3 HL. assert (X : forall x, In x [47; 92; 58; 33]%N -> ~ In x s).
    { intros x Hx Hin. apply (proj1 (forallb_forall _ _) H) in Hin. apply negb_true_iff in Hin.
      assert (E : existsb (N.eqb x) [47; 92; 58; 33]%N = true) by (apply existsb_exists; exists x; split; [exact Hx|apply N.eqb_refl]). congruence. }
    split; [split; [exact N1|split; [exact N2|split; [exact N3|apply X; cbn; auto]]]|]. repeat split; try (apply X; cbn; auto 6). exact HL. }
  repeat (split; [first [exact I|apply SC; reflexivity]|]). split.
  - repeat (constructor; [split; [apply NM; try discriminate; reflexivity|split; [apply SC; reflexivity|]];
      intros n Hn E; cbn [reserved_names In] in Hn; repeat (destruct Hn as [<-|Hn]; [discriminate E|]); contradiction|]). constructor.
  - repeat constructor; intros H; repeat destruct H as [H|H]; try discriminate; exact H.
Qed.
Example example_v_fits : forall up, table_fits up example_v.
Proof.
  intros up. apply example_table_fits; [apply example_info_fits| |reflexivity..].
  repeat (constructor; [split; [split; [repeat constructor; discriminate|reflexivity]|repeat split; try discriminate;
    intros H; repeat destruct H as [H|H]; try discriminate; exact H]|]). constructor.
Qed.

(** * C16: table information *)
(** Writing appends the TableInfo storage with one stream per field that is there and one per property, with the documented names
    and contents; reading gives the same fields and the same properties, in whatever order the storage lists its entries. *)
Theorem C16_info_round_trip : forall up order t f, (forall l, Permutation l (order l)) -> info_fits up t -> distinct_paths up f ->
  outside up TableInfoStg f ->
  let f' := f ++ ([TableInfoStg], Storage) :: map (fun e => ([TableInfoStg; fst e], Stream (snd e))) (info_entries t) in
  exists t', write_tableinfo up t f = Ok f' /\ read_tableinfo up order f' = Ok t' /\ same_info t' t.
Proof. exact info_written. Qed.
Print Assumptions C16_info_round_trip.
Example C16_example : forall up, info_fits up example_info /\ distinct_paths up [([GameStg], Storage)] /\
  outside up TableInfoStg [([GameStg], Storage)].
Proof. intros up. split; [apply example_info_fits|]. split; repeat constructor; [intros []|discriminate]. Qed.
(** Without the condition on the names it does not hold: stream names ignore case, so a property called "tablename" replaces the name
    of the table. *)
Theorem C16_reserved_name_refuted : exists t, ti_table_name t = Some (lit "Funhouse") /\ ti_properties t = [(lit "tablename", lit "x")] /\
  forall up f, write_tableinfo up t [] = Ok f ->
    exists t', read_tableinfo up (fun l => l) f = Ok t' /\ ti_table_name t' = Some (lit "x") /\ ti_properties t' = [].
Proof.
  exists (mkTableInfo (Some (lit "Funhouse")) None None None None None None None None None None None [(lit "tablename", lit "x")]).
  split; [reflexivity|]. split; [reflexivity|]. intros up f H. vm_compute in H. injection H as <-. eexists. split; [vm_compute; reflexivity|].
  split; reflexivity.
Qed.
Print Assumptions C16_reserved_name_refuted.
Example C16_reserved_name_example : forall up, exists f, write_tableinfo up
  (mkTableInfo (Some (lit "Funhouse")) None None None None None None None None None None None [(lit "tablename", lit "x")]) [] = Ok f.
Proof. intros up. eexists. vm_compute. reflexivity. Qed.
(** A property whose name has more than 31 characters makes writing fail. *)
Theorem C16_long_name_refuted : exists t, ti_properties t = [(lit "01234567890123456789012345678901", lit "x")] /\
  forall up, write_tableinfo up t [] = Err.
Proof.
  exists (mkTableInfo None None None None None None None None None None None None [(lit "01234567890123456789012345678901", lit "x")]).
  split; [reflexivity|]. intros up. vm_compute. reflexivity.
Qed.
Print Assumptions C16_long_name_refuted.

(** * C44: the version *)
(** The version that is written is the version that is read, and nothing else in the file changes. *)
Theorem C44_version_stream : forall up v f, cf_node up [GameStg] f = Some Storage -> cf_node up [GameStg; lit "Version"] f <> Some Storage ->
  exists f', write_version up v f = Ok f' /\ read_version up f' = Ok v /\
    forall q, ~ same_path up q [GameStg; lit "Version"] -> cf_node up q f' = cf_node up q f.
Proof. exact version_stored. Qed.
Print Assumptions C44_version_stream.
Theorem C44_text_round_trip : forall v, Version_parse (Version_text v) = Ok v.
Proof. exact Version_parse_text. Qed.
Print Assumptions C44_text_round_trip.
(** Parsing accepts decimal numbers below 2^32 with an optional plus sign, and nothing else. *)
Theorem C44_parse : forall s v, Version_parse s = Ok v <-> exists d, (s = d \/ s = 43%N :: d) /\ digits d /\ decimal d = w32_to_Z v.
Proof. exact Version_parse_iff. Qed.
Print Assumptions C44_parse.
Example C44_example : forall up, cf_node up [GameStg] [([GameStg], Storage)] = Some Storage /\
  cf_node up [GameStg; lit "Version"] [([GameStg], Storage)] <> Some Storage /\ Version_text (Z_to_w32 1080) = lit "1080" /\
  Version_parse (lit "+01080") = Ok (Z_to_w32 1080) /\ Version_parse (lit "4294967296") = Err.
Proof. intros up. repeat split. vm_compute. discriminate. Qed.

(** * C23: whole tables *)
(** The file has exactly the documented entries, in this order, with the streams of the parts. *)
Theorem C23_layout : forall up md2 checked v, table_fits up v ->
  exists gamedata items images sounds fonts collections mac,
    write_vpx up md2 checked v [] =
      Ok (table_file (stream_bytes (tag_records (vpx_custominfotags v))) (vpx_info v) (le32 (w32_to_Z (vpx_version v))) gamedata items images sounds
            fonts collections mac) /\
    GameData_write (w32_to_Z (vpx_version v)) (vpx_gamedata v) = Ok gamedata /\
    Forall2 (fun x d => gameitem_write x = Ok d) (vpx_gameitems v) items /\
    Forall2 (fun x d => ImageData_write x = Ok d) (vpx_images v) images /\
    Forall2 (fun x d => Sound_write (w32_to_Z (vpx_version v)) x = Ok d) (vpx_sounds v) sounds /\
    Forall2 (fun x d => FontData_write x = Ok d) (vpx_fonts v) fonts /\
    Forall2 (fun x d => Collection_write x = Ok d) (vpx_collections v) collections.
Proof. exact table_stored. Qed.
Print Assumptions C23_layout.
(** Reading the file gives the table back: same tags, version, images, fonts and collections, the table information, and of the
    game data, items and sounds what C17, C07 and C11 say is kept. *)
Theorem C23_round_trip : forall up md2 order checked v, (forall l, Permutation l (order l)) -> table_fits up v ->
  exists f, write_vpx up md2 checked v [] = Ok f /\
    forall checked', exists info, read_vpx up order checked' f = Ok (stored_table info v) /\ same_info info (vpx_info v).
Proof. exact table_round_trip. Qed.
Print Assumptions C23_round_trip.
(** A table without the values that those properties list as lost is read back equal. *)
Theorem C23_equal : forall up md2 order checked v, (forall l, Permutation l (order l)) -> table_fits up v -> table_survives v ->
  exists f, write_vpx up md2 checked v [] = Ok f /\
    forall checked', exists info, read_vpx up order checked' f = Ok (with_info info v) /\ same_info info (vpx_info v).
Proof. exact table_equal. Qed.
Print Assumptions C23_equal.
Example C23_example : forall up, table_fits up example_v /\ table_survives example_v /\
  Forall (fun l => l <> 0) [zlen (vpx_gameitems example_v); zlen (vpx_images example_v); zlen (vpx_sounds example_v);
                            zlen (vpx_fonts example_v); zlen (vpx_collections example_v)].
Proof.
  intros up. split; [apply example_v_fits|]. split.
  - split; [|split].
    + split; [discriminate|]. split; [discriminate|]. split; [discriminate|]. intros _ _ H. exfalso. apply H. reflexivity.
    + repeat constructor; vm_compute; reflexivity.
    + repeat constructor.
  - repeat constructor; discriminate.
Qed.
(** The condition on the counters is needed: writing does not bring them up to date, and items the counter does not count are lost. *)
Theorem C23_wrong_counter_refuted : exists v, vpx_gameitems v = [example_wall; example_ball] /\
  forall up md2 checked f, write_vpx up md2 checked v [] = Ok f ->
    exists v', read_vpx up (fun l => l) checked f = Ok v' /\ vpx_gameitems v' = [].
Proof.
  exists (mkVPX [] TableInfo_new (Z_to_w32 1080) GameData_default [example_wall; example_ball] [] [] [] []). split; [reflexivity|].
  intros up md2 checked f H. destruct checked; vm_compute in H; injection H as <-; eexists; (split; [vm_compute; reflexivity|reflexivity]).
Qed.
Print Assumptions C23_wrong_counter_refuted.
Example C23_wrong_counter_example : forall up md2 checked, exists f,
  write_vpx up md2 checked (mkVPX [] TableInfo_new (Z_to_w32 1080) GameData_default [example_wall; example_ball] [] [] [] []) [] = Ok f.
Proof. intros up md2 checked. eexists. destruct checked; vm_compute; reflexivity. Qed.

(** * C27: locking *)
(** Any history of lock and unlock calls on a table file: every call reports whether it changed something, the counter follows the
    history, the file is reported as locked when the counter is odd; without a change the file is the same; with a change only the
    game data stream and the MAC are new, the new MAC verifies, and the game data are the old ones with the new counter (and the
    normalised position flag of C18). *)
Theorem C27_lock_history : forall up md2 checked f version tags collections d g os,
  editable up f version tags collections d -> size_fits (zlen d) -> GameData_read (w32_to_Z version) checked d = Ok g ->
  counters_agree g -> blocks_fit g ->
  let changes := fst (lock_history os (locked_counter g)) in
  let counter := snd (lock_history os (locked_counter g)) in
  exists f' g',
    run_locks up md2 checked os f = Ok (changes, f') /\ file_is_locked up checked f' = Ok (Z.odd counter) /\
    file_read_gamedata up checked f' = Ok g' /\
    (~ In true changes -> f' = f /\ g' = g) /\
    (In true changes ->
       g' = set_gd_beta (beta_stored (w32_to_Z version) g) (set_locked_counter counter g) /\
       (exists gd mac, only_game_data_changed up f f' gd mac) /\ forall checked, verify up md2 checked f' = Ok VerifyOk).
Proof. exact locks_any. Qed.
Print Assumptions C27_lock_history.
(** Whatever came before, after lock the table is locked and after unlock it is not. *)
Theorem C27_last_call : forall up md2 checked f version tags collections d g os o,
  editable up f version tags collections d -> size_fits (zlen d) -> GameData_read (w32_to_Z version) checked d = Ok g ->
  counters_agree g -> blocks_fit g ->
  exists changes f', run_locks up md2 checked (os ++ [o]) f = Ok (changes, f') /\
    file_is_locked up checked f' = Ok (match o with OpLock => true | OpUnlock => false end).
Proof. exact last_call. Qed.
Print Assumptions C27_last_call.
(** Locking a locked table and unlocking an unlocked one leave the file as it is, byte for byte, and report that. *)
Theorem C27_idempotent : forall up md2 checked f,
  (file_is_locked up checked f = Ok true -> file_lock up md2 checked f = Ok (false, f)) /\
  (file_is_locked up checked f = Ok false -> file_unlock up md2 checked f = Ok (false, f)).
Proof. exact lock_idle. Qed.
Print Assumptions C27_idempotent.
(** The files that were written from tables can be edited. *)
Theorem C27_written_editable : forall up md2 v, table_fits up v -> exists f d, (forall checked, write_vpx up md2 checked v [] = Ok f) /\
  GameData_write (w32_to_Z (vpx_version v)) (vpx_gamedata v) = Ok d /\
  editable up f (vpx_version v) (Some (vpx_custominfotags v)) (map collection_records (vpx_collections v)) d.
Proof. exact written_editable. Qed.
Print Assumptions C27_written_editable.
Lemma example_editable : forall up md2 checked, exists f d g,
  write_vpx up md2 checked example_v [] = Ok f /\
  editable up f (vpx_version example_v) (Some (vpx_custominfotags example_v)) (map collection_records (vpx_collections example_v)) d /\
  size_fits (zlen d) /\ GameData_read (w32_to_Z (vpx_version example_v)) checked d = Ok g /\ counters_agree g /\ blocks_fit g /\
  locked_counter g = 3.
Proof.
  intros up md2 checked. destruct (written_editable up md2 example_v (example_v_fits up)) as (f & d & W & G & E).
  assert (S : storable (vpx_gamedata example_v)) by apply (example_v_fits up).
  destruct (GameDataProps.game_data_stored (w32_to_Z (vpx_version example_v)) (vpx_gamedata example_v) S) as (d' & G' & R).
  rewrite G in G'. injection G' as <-. exists f, d. eexists. split; [apply W|]. split; [exact E|]. split; [|split; [apply R|]].
  - vm_compute in G. injection G as <-. unfold size_fits. vm_compute. reflexivity.
  - assert (T : gd_tail (GameData_stored (w32_to_Z (vpx_version example_v)) (vpx_gamedata example_v)) = gd_tail (vpx_gamedata example_v)).
    { unfold GameData_stored. rewrite <- (GameDataProps.stored_no_empty (gd_tail (vpx_gamedata example_v))) at 2 by discriminate. reflexivity. }
    destruct S as (S1 & S2 & _). unfold counters_agree, blocks_fit, locked_counter. rewrite T. split; [exact S1|]. split; [exact S2|reflexivity].
Qed.
Example C27_example : forall up md2 checked, exists f f', write_vpx up md2 checked example_v [] = Ok f /\
  run_locks up md2 checked [OpLock; OpUnlock; OpUnlock; OpLock] f = Ok ([false; true; false; true], f') /\
  file_is_locked up checked f' = Ok true.
Proof.
  intros up md2 checked. destruct (example_editable up md2 checked) as (f & d & g & W & E & S & R & C & B & K).
  destruct (locks_any up md2 checked f _ _ _ d g [OpLock; OpUnlock; OpUnlock; OpLock] E S R C B) as (f' & g' & L & I & _).
  rewrite K in L, I. exists f, f'. split; [exact W|]. split; [exact L|exact I].
Qed.

(** * C48: importing a script *)
(** Importing a script into a table file changes only the game data and the MAC, the MAC verifies, the script that is extracted
    afterwards is the imported one, and the rest of the game data is as before. *)
Theorem C48_import_extract : forall up md2 checked script f version tags collections d g,
  editable up f version tags collections d -> size_fits (zlen d) -> GameData_read (w32_to_Z version) checked d = Ok g ->
  counters_agree g -> blocks_fit g -> Forall scalar_value script -> ~ In 0%N script -> size_fits (zlen (utf8_encode script)) ->
  exists f', import_script up md2 checked script f = Ok f' /\ (exists gd mac, only_game_data_changed up f f' gd mac) /\
    (forall checked', verify up md2 checked' f' = Ok VerifyOk) /\
    forall checked', extract_script up checked' f' = Ok script /\
      file_read_gamedata up checked' f' = Ok (set_gd_beta (beta_stored (w32_to_Z version) g) (GameData_set_code script g)).
Proof. exact import_any. Qed.
Print Assumptions C48_import_extract.
Example C48_example : forall up md2 checked, exists f f', write_vpx up md2 checked example_v [] = Ok f /\
  import_script up md2 checked [65; 0xE9; 0x1F600]%N f = Ok f' /\ extract_script up checked f' = Ok [65; 0xE9; 0x1F600]%N.
Proof.
  intros up md2 checked. destruct (example_editable up md2 checked) as (f & d & g & W & E & S & R & C & B & _).
  destruct (import_any up md2 checked [65; 0xE9; 0x1F600]%N f _ _ _ d g E S R C B) as (f' & I & _ & _ & X).
  - repeat constructor; unfold scalar_value; lia.
  - intros [H|[H|[H|[]]]]; discriminate.
  - reflexivity.
  - exists f, f'. split; [exact W|]. split; [exact I|apply X].
Qed.
(** A script with a NUL character does not survive: everything from the NUL character on is lost when it is read. *)
Theorem C48_nul_refuted : exists script f f', forall checked,
  import_script (fun c => c) (fun _ => []) checked script f = Ok f' /\ extract_script (fun c => c) checked f' = Ok [65]%N /\ script <> [65]%N.
Proof.
  destruct (write_minimal_vpx (fun c => c) (fun _ => []) true []) as [f|] eqn:E; [|vm_compute in E; discriminate].
  exists [65; 0; 66]%N, f. destruct (import_script (fun c => c) (fun _ => []) true [65; 0; 66]%N f) as [f'|] eqn:E'; [exists f'|].
  - vm_compute in E. injection E as <-. vm_compute in E'. injection E' as <-. intros [|]; (split; [vm_compute; reflexivity|]); (split; [vm_compute; reflexivity|discriminate]).
  - vm_compute in E. injection E as <-. vm_compute in E'. discriminate.
Qed.
Print Assumptions C48_nul_refuted.

(** * C28: the message authentication code *)
(** The code is the hash of exactly these bytes: a fixed prefix, the version, ten streams of the table information, the custom info
    tags with the values they name, the game data and the collections (records without their sizes). *)
Theorem C28_formula : forall up md2 checked f tags collections before script after, hashable up f tags collections ->
  cf_node up [GameStg; lit "GameData"] f = Some (Stream (game_data_layout before script after)) ->
  Forall valid_record before -> Forall valid_record after -> ~ In "CODE"%string (map fst (before ++ after)) -> data_fits script ->
  generate_mac up md2 checked f = Ok (md2 (hashed_file up f tags (hashed_game_data before script after) collections)).
Proof. exact mac_formula. Qed.
Print Assumptions C28_formula.
(** Computing it ends for every file, also for a damaged one. *)
Theorem C28_ends : forall up md2 checked f, generate_mac up md2 checked f <> OutOfFuel.
Proof. exact generate_mac_ends. Qed.
Print Assumptions C28_ends.
(** The file of a table verifies, and the stored code is the hash of the documented bytes. *)
Theorem C28_verifies : forall up md2 v, table_fits up v -> exists f before script after,
  (forall checked, write_vpx up md2 checked v [] = Ok f) /\ (forall checked, verify up md2 checked f = Ok VerifyOk) /\
  GameData_write (w32_to_Z (vpx_version v)) (vpx_gamedata v) = Ok (game_data_layout before script after) /\
  gt_code (gd_tail (vpx_gamedata v)) = swe_of_bytes script /\
  cf_node up [GameStg; lit "MAC"] f =
    Some (Stream (md2 (hashed_file up f (Some (vpx_custominfotags v)) (hashed_game_data before script after) (map collection_records (vpx_collections v))))).
Proof. exact table_verifies. Qed.
Print Assumptions C28_verifies.
(** Files that agree on the covered streams have the same code. *)
Theorem C28_covered : forall up md2 checked checked' f g tags collections before script after,
  hashable up f tags collections -> hashable up g tags collections ->
  cf_node up [GameStg; lit "GameData"] f = Some (Stream (game_data_layout before script after)) ->
  cf_node up [GameStg; lit "GameData"] g = Some (Stream (game_data_layout before script after)) ->
  Forall valid_record before -> Forall valid_record after -> ~ In "CODE"%string (map fst (before ++ after)) -> data_fits script ->
  (forall q, In q (hashed_raw tags) -> content up q f = content up q g) ->
  generate_mac up md2 checked f = generate_mac up md2 checked' g.
Proof. exact mac_covers. Qed.
Print Assumptions C28_covered.
(** Tables that differ in the contents of items, images, sounds and fonts, in the save date and in the save revision only, have the
    same code, unless a custom info tag names one of the latter two. *)
Theorem C28_not_covered : forall up md2 checked v w revision date, table_fits up v -> table_fits up w ->
  vpx_custominfotags w = vpx_custominfotags v ->
  vpx_info w = set_ti_table_save_rev revision (set_ti_table_save_date date (vpx_info v)) -> vpx_version w = vpx_version v ->
  vpx_gamedata w = vpx_gamedata v -> vpx_collections w = vpx_collections v ->
  Forall (fun s => ~ same_name up s (lit "TableSaveRev") /\ ~ same_name up s (lit "TableSaveDate")) (vpx_custominfotags v) ->
  exists f g, write_vpx up md2 checked v [] = Ok f /\ write_vpx up md2 checked w [] = Ok g /\
    cf_node up [GameStg; lit "MAC"] g = cf_node up [GameStg; lit "MAC"] f.
Proof. exact uncovered_parts. Qed.
Print Assumptions C28_not_covered.
Example C28_example : forall up,
  let v := example_table example_info [] [example_wall; example_ball] in
  let w := example_table (set_ti_table_save_rev (Some (lit "9")) (set_ti_table_save_date None example_info)) [] [example_wall; example_wall] in
  table_fits up v /\ table_fits up w.
Proof.
  intros up v w.
  assert (I : info_fits up (set_ti_table_save_rev (Some (lit "9")) (set_ti_table_save_date None example_info))).
  { pose proof Logic.I as T. assert (S : Forall scalar_value (lit "9")) by (change (lit "9") with [57%N]; constructor; [unfold scalar_value; lia|constructor]).
    pose proof (example_info_fits up) as H. unfold info_fits in *. decompose [and] H. repeat split; assumption. }
  split; [exact (example_table_fits up _ [] (example_info_fits up) (Forall_nil _) example_ball eq_refl eq_refl eq_refl)|].
  exact (example_table_fits up _ [] I (Forall_nil _) example_wall eq_refl eq_refl eq_refl).
Qed.
(** Changing the content of one of the streams that are hashed as they are changes the hashed bytes. *)
Theorem C28_change_detected : forall up f g tags gamedata collections p, In p (hashed_raw tags) -> content up p f <> content up p g ->
  (forall q, In q (hashed_raw tags) -> ~ same_path up q p -> content up q f = content up q g) ->
  hashed_file up f tags gamedata collections <> hashed_file up g tags gamedata collections.
Proof. exact change_detected. Qed.
Print Assumptions C28_change_detected.
Example C28_change_example : forall up, let file d := [([GameStg], Storage); ([GameStg; lit "Version"], Stream d)] in
  In [GameStg; lit "Version"] (hashed_raw None) /\
  content up [GameStg; lit "Version"] (file [x01]) <> content up [GameStg; lit "Version"] (file [x01; x02]).
Proof. intros up file. split; [left; reflexivity|vm_compute; discriminate]. Qed.
(** Two changes can cancel out, because the lengths of the streams are not covered: two tables with different names and authors have
    the same code, whatever the hash function is. *)
Theorem C28_ambiguous_refuted : exists v w, ti_table_name (vpx_info v) <> ti_table_name (vpx_info w) /\
  forall up, table_fits up v /\ table_fits up w /\
  forall md2 checked, exists f g, write_vpx up md2 checked v [] = Ok f /\ write_vpx up md2 checked w [] = Ok g /\
    cf_node up [GameStg; lit "MAC"] g = cf_node up [GameStg; lit "MAC"] f.
Proof.
  pose (info name author := mkTableInfo (Some name) (Some author) None None None None None None None None None None []).
  exists (example_table (info (lit "ab") (lit "c")) [] [example_wall; example_ball]), (example_table (info (lit "a") (lit "bc")) [] [example_wall; example_ball]).
  split; [discriminate|]. intros up.
  assert (I : forall a b, Forall scalar_value a -> Forall scalar_value b -> info_fits up (info a b)).
  { intros a b Ha Hb. unfold info_fits, info. cbn [ti_table_name ti_author_name]. repeat (split; [first [exact I|assumption]|]). split; constructor. }
  assert (L : forall s, forallb (fun c => c <? 128)%N s = true -> Forall scalar_value s).
  { intros s H. apply Forall_forall. intros c Hc. apply (proj1 (forallb_forall _ _) H) in Hc. unfold scalar_value. lia. }
  split; [refine (example_table_fits up _ [] _ (Forall_nil _) example_ball eq_refl eq_refl eq_refl); apply I; apply L; reflexivity|].
  split; [refine (example_table_fits up _ [] _ (Forall_nil _) example_ball eq_refl eq_refl eq_refl); apply I; apply L; reflexivity|].
  intros md2 checked. destruct checked; (eexists; eexists; (split; [vm_compute; reflexivity|]); (split; [vm_compute; reflexivity|]); vm_compute; reflexivity).
Qed.
Print Assumptions C28_ambiguous_refuted.
(** A table with an empty custom info tag cannot be written at all. *)
Theorem C28_empty_tag_refuted : forall up md2 checked, write_vpx up md2 checked (example_table example_info [[]] [example_wall; example_ball]) [] = Err.
Proof. intros up md2 [|]; vm_compute; reflexivity. Qed.
Print Assumptions C28_empty_tag_refuted.

(** * C43: editing a table in memory *)
(** Any sequence of adding items, adding or replacing images and setting the script leaves a table that can be written and in which
    no two images have the same name (counters included: see C23). *)
Theorem C43_edits : forall up checked es v, Forall edit_fits es -> table_fits up v -> image_names_differ v -> room (zlen es) v ->
  exists v', run_edits checked es v = Ok v' /\ table_fits up v' /\ image_names_differ v'.
Proof. exact edit_history. Qed.
Print Assumptions C43_edits.
(** What adding or replacing an image does: it takes the place of the first image with that name, which is returned; or it becomes
    the last one and the counter goes up.  Nothing else changes. *)
Theorem C43_image : forall checked i v, zlen (vpx_images v) < 2 ^ 32 - 1 ->
  w32_to_Z (gt_images_size (gd_tail (vpx_gamedata v))) = zlen (vpx_images v) ->
  exists v' r, add_or_replace_image checked i v = Ok (v', r) /\
  match r with
  | Some old => exists before after, vpx_images v = before ++ old :: after /\ v' = with_images (before ++ i :: after) v /\
                  same_image_name old i /\ Forall (fun x => ~ same_image_name x i) before
  | None => Forall (fun x => ~ same_image_name x i) (vpx_images v) /\
            v' = with_images (vpx_images v ++ [i])
                   (with_game_data (set_gd_tail (set_gt_images_size (Z_to_w32 (zlen (vpx_images v) + 1)) (gd_tail (vpx_gamedata v))) (vpx_gamedata v)) v)
  end.
Proof. exact image_edit. Qed.
Print Assumptions C43_image.
Example C43_example : forall up, table_fits up example_v /\ image_names_differ example_v /\ room 3 example_v /\
  Forall edit_fits [AddItem example_ball; AddImage (example_image None (Some example_jpeg)); SetScript (lit "' script")] /\
  zlen (vpx_images example_v) = 1.
Proof.
  intros up. split; [apply example_v_fits|]. split; [repeat constructor; intros []|]. split; [split; vm_compute; reflexivity|]. split; [|reflexivity].
  assert (L : forall s, forallb (fun c => (0 <? c) && (c <? 128))%N s = true -> Forall scalar_value s /\ ~ In 0%N s).
  { intros s H. split; [apply Forall_forall; intros c Hc|intros Hc]; apply (proj1 (forallb_forall _ _) H) in Hc; [unfold scalar_value; lia|discriminate]. }
  constructor; [split; reflexivity|]. constructor; [exact C10_example_file|]. constructor; [|constructor].
  destruct (L (lit "' script") eq_refl) as [L1 L2]. split; [exact L1|]. split; [exact L2|reflexivity].
Qed.

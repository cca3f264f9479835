(** From the specification of SpecStructs.v to the facts about the readers and writers. *)
From Coq Require Import SpecFloat.
From Verif Require Import Base Text Biff Quantize Common Enums ItemBase.
From Verif Require Import StructMaterial StructRenderProbe Structs.
From Verif Require Import BaseFacts TextFacts BiffFacts CommonFacts TermFacts QuantizeFacts EnumsFacts ItemBaseFacts.
From Verif Require Import StructMaterialFacts StructRenderProbeFacts StructBaseFacts StructsFacts LegacyFacts.
From Verif Require Import GDBounds GDDesktop GDCabinet GDPhysics GDScene GDBoundsFacts GDDesktopFacts GDCabinetFacts GDPhysicsFacts GDSceneFacts.
From Verif Require Import GameData GameDataFacts GameItemBaseFacts.
From Verif Require Import SpecBiff SpecItems RecordFacts SpecStructs.

(** ** Representability *)
Lemma size_fits_iff n : fits n = true <-> size_fits n.
Proof. unfold fits, size_fits. change (2 ^ 32) with 4294967296. lia. Qed.
Lemma string_fits_iff s : str_ok s = true <-> string_fits s.
Proof. unfold str_ok, string_fits. rewrite andb_true_iff, latin1_ok_chars, size_fits_iff. reflexivity. Qed.
Lemma wide_fits_iff s : wstr_ok s = true <-> wide_fits s.
Proof. unfold wstr_ok, wide_fits. rewrite andb_true_iff, is_rstring_scalars, size_fits_iff. reflexivity. Qed.
Lemma short_name_iff s : sname_ok s = true <-> short_name s.
Proof. unfold sname_ok, short_name. rewrite andb_true_iff, latin1_ok_chars. intuition lia. Qed.
Lemma forallb_iff {A} (f : A -> bool) (P : A -> Prop) l : (forall x, f x = true <-> P x) -> (forallb f l = true <-> Forall P l).
Proof. intros H. rewrite forallb_forall, Forall_forall. split; intros H1 x Hx; apply H, H1, Hx. Qed.
Lemma opt_ok_iff {A} (f : A -> bool) (P : A -> Prop) o : (forall x, f x = true <-> P x) -> (opt_ok f o = true <-> option_all P o).
Proof. intros H. destruct o; cbn; [apply H|tauto]. Qed.

(** ** Layout *)
Lemma string_payload_eq s : string_bytes s = string_payload s.
Proof. unfold string_bytes, string_payload, lp_bytes. rewrite le32_w32, zlen_latin1_bytes. reflexivity. Qed.
Lemma wide_payload_eq s : wstring_bytes s = wide_payload s.
Proof. unfold wstring_bytes, wide_payload, lp_bytes. rewrite le32_w32. reflexivity. Qed.
Lemma bool_payload_eq b : bool_bytes b = bool_payload b.
Proof. apply le32_w32. Qed.
Lemma repeat_S {A} (x : A) n : x :: repeat x n = repeat x (Datatypes.S n).
Proof. reflexivity. Qed.
Lemma name32_eq s : short_name s -> name_bytes s = name32 s.
Proof.
  intros [_ H]. unfold name_bytes, name32. change (latin1_bytes s) with (latin1_text s). f_equal. cbn [app].
  rewrite repeat_S. f_equal. pose proof (zlen_nonneg s). lia.
Qed.
Lemma color_ref_eq c : win_color_bytes c = color_ref c.
Proof.
  destruct c as [r g b u]. unfold win_color_bytes, Color_to_win_color, color_ref, w32_bytes, Z_to_w32. cbn [c_r c_g c_b c_unused w32_0 w32_1 w32_2 w32_3].
  pose proof (byte_to_Z_range r). pose proof (byte_to_Z_range g). pose proof (byte_to_Z_range b). pose proof (byte_to_Z_range u).
  repeat match goal with |- _ :: _ = _ :: _ => apply f_equal2; [apply byte_to_Z_inj; rewrite byte_to_Z_to_byte; lia|] end. reflexivity.
Qed.
Lemma legacy_material_layout_eq m : short_name (sm_name m) -> SaveMaterial_bytes m = legacy_material_layout m.
Proof.
  intros H. unfold SaveMaterial_bytes, legacy_material_layout. rewrite name32_eq by exact H. rewrite !color_ref_eq. reflexivity.
Qed.
Lemma legacy_physics_layout_eq m : short_name (sp_name m) -> SavePhysicsMaterial_bytes m = legacy_physics_layout m.
Proof. intros H. unfold SavePhysicsMaterial_bytes, legacy_physics_layout. rewrite name32_eq by exact H. reflexivity. Qed.

(** Every plain record list is the image of its specification. *)
Lemma map_rec_of rs : map rec_of rs = map (fun r => R (fst r) (snd r)) rs.
Proof. apply map_ext. intros [t p]. reflexivity. Qed.
Lemma collection_recs v : Collection_recs v = map rec_of (collection_records v).
Proof.
  unfold collection_records. rewrite !map_app, map_map. cbn [map rec_of fst snd app]. unfold Collection_recs.
  rewrite wide_payload_eq, !bool_payload_eq. f_equal. f_equal. apply map_ext. intros x. rewrite wide_payload_eq. reflexivity.
Qed.
Lemma font_recs v : FontData_recs v = map rec_of (font_records v).
Proof. unfold font_records, FontData_recs. rewrite !string_payload_eq, le32_w32. reflexivity. Qed.
Lemma info_tags_recs v : CustomInfoTags_recs v = map rec_of (map (fun s => ("CUST"%string, string_payload s)) v).
Proof. unfold CustomInfoTags_recs. rewrite map_map. apply map_ext. intros x. rewrite string_payload_eq. reflexivity. Qed.
Lemma material_recs v : Material_recs v = map rec_of (material_records v).
Proof.
  unfold Material_recs, material_records. rewrite string_payload_eq, bool_payload_eq.
  replace (w32_bytes (MaterialType_to_i32 (Material_type_ v)))
    with (le32 (match Material_type_ v with MaterialType_Basic => 0 | MaterialType_Metal => 1 | MaterialType_Unknown => -1 end))
    by (destruct (Material_type_ v); reflexivity).
  reflexivity.
Qed.

(** ** Records whose reader does not know them *)
Lemma rec_ok_of t (p : bytes) : tag_ok t = true -> size_ok (zlen p) = true -> t <> "ENDB"%string -> rec_ok t (zlen p) = true.
Proof. intros H1 H2 H3. unfold rec_ok. rewrite H1, H2. apply String.eqb_neq in H3. rewrite H3. reflexivity. Qed.
Lemma Inserted_refl known rs : Inserted known rs rs.
Proof. induction rs; constructor; assumption. Qed.
Lemma Steps_recs_valid {S} (h : string -> S -> rd_M S) s rs s' : Steps h s (map rec_of rs) s' -> Forall (fun r => valid_tag (fst r)) rs.
Proof.
  revert s. induction rs as [|[t p] rs IH]; intros s H; [constructor|]. cbn [map] in H. inversion H; subst.
  constructor; [|eapply IH; eassumption]. cbn [fst]. apply tag_ok_valid.
  match goal with H : rec_ok _ _ = true |- _ => unfold rec_ok in H; apply andb_true_iff in H; destruct H as [H _]; apply andb_true_iff in H; apply H end.
Qed.
Lemma stream_enc_tags rs : Forall (fun r => valid_tag (fst r)) rs -> enc (map rec_of rs ++ [endb]) = stream_bytes rs.
Proof.
  intros H. unfold stream_bytes. rewrite enc_app. f_equal. induction H as [|[t p] rs H _ IH]; [reflexivity|].
  cbn [map flat_map]. rewrite enc_cons, IH. f_equal. apply record_bytes_enc, H.
Qed.
Lemma Steps_inserted {S} (arms : list (arm S)) s rs s' : Steps (dispatch arms) s (map rec_of rs) s' ->
  forall rs', Inserted (map fst arms) rs rs' -> Steps (dispatch arms) s (map rec_of rs') s'.
Proof.
  intros H rs' HI. revert s H. induction HI as [|r rs rs' _ IH|r rs rs' Hv Hk _ IH]; intros s H; [exact H| |].
  - cbn [map] in *. inversion H; subst. econstructor; eauto.
  - destruct r as [t p]. destruct (valid_rec_ok t p Hv) as (Ht & Hs & He). cbn [map rec_of fst snd] in *.
    econstructor; [|apply Handles_unknown, Hk|apply IH, H]. exact (rec_ok_of t p Ht Hs He).
Qed.
Lemma Steps_data_inserted {S} (arms : list (arm S)) s rs s' : Steps (dispatch_data arms) s (map rec_of rs) s' ->
  forall rs', Inserted (map fst arms) rs rs' -> Steps (dispatch_data arms) s (map rec_of rs') s'.
Proof.
  intros H rs' HI. revert s H. induction HI as [|r rs rs' _ IH|r rs rs' Hv Hk _ IH]; intros s H; [exact H| |].
  - cbn [map] in *. inversion H; subst. econstructor; eauto.
  - destruct r as [t p]. destruct (valid_rec_ok t p Hv) as (Ht & Hs & He). cbn [map rec_of fst snd] in *.
    econstructor; [|apply dispatch_data_unknown, lookup_none, Hk|apply IH, H]. exact (rec_ok_of t p Ht Hs He).
Qed.

Lemma inserted_stream {S} (arms : list (arm S)) s rs s' : Steps (dispatch arms) s (map rec_of rs) s' ->
  forall rs', Inserted (map fst arms) rs rs' -> reads_as (read_arms arms s) (stream_bytes rs') s'.
Proof.
  intros H rs' HI. pose proof (Steps_inserted _ _ _ _ H _ HI) as H'. rewrite <- (stream_enc_tags _ (Steps_recs_valid _ _ _ _ H')).
  apply read_arms_reads, H'.
Qed.
Lemma written {S} (h : string -> S -> rd_M S) s rs s' m : Steps h s (map rec_of rs) s' ->
  wapp m (enc (map rec_of rs ++ [endb])) -> Closes m -> run_writer m = Ok (stream_bytes rs).
Proof. intros H W C. rewrite <- (stream_enc_tags _ (Steps_recs_valid _ _ _ _ H)). apply run_wapp; assumption. Qed.

(** ** Collections *)
Definition collection_fits (v : Collection) : Prop := wide_fits (co_name v) /\ Forall wide_fits (co_items v).
Lemma collection_fits_iff v : Collection_ok v = true <-> collection_fits v.
Proof.
  unfold Collection_ok, collection_fits. rewrite andb_true_iff, wide_fits_iff, (forallb_iff _ _ _ wide_fits_iff). reflexivity.
Qed.
Lemma collection_stored v : wide_fits (co_name v) -> Forall wide_fits (co_items v) ->
  Collection_write v = Ok (stream_bytes (collection_records v)) /\
  forall rs checked, Inserted (map fst Collection_arms) (collection_records v) rs -> Collection_read checked (stream_bytes rs) = Ok v.
Proof.
  intros H1 H2. assert (H : Collection_ok v = true) by (apply collection_fits_iff; split; assumption).
  pose proof (Collection_steps v H) as HS. pose proof (Collection_wapp v H) as HW. rewrite collection_recs in *. split.
  - apply (written _ _ _ _ _ HS HW). unfold Collection_write_m. closes.
  - intros rs c HI. apply run_reader_reads, (inserted_stream _ _ _ _ HS _ HI).
Qed.
Lemma collection_resave checked b v : size_fits (zlen b) -> Collection_read checked b = Ok v ->
  exists b', Collection_write v = Ok b' /\ forall checked', Collection_read checked' b' = Ok v.
Proof.
  intros Hb E. apply size_fits_iff in Hb. pose proof (run_reader_yields _ _ Collection_yields _ _ _ Hb E) as H.
  apply Collection_roundtrip, H.
Qed.
Lemma collection_terminates checked b : Collection_read checked b <> OutOfFuel.
Proof. apply run_reader_term, Collection_term. Qed.

(** ** Fonts *)
Lemma font_stored v : string_fits (fo_name v) -> string_fits (fo_path v) -> data_fits (fo_data v) ->
  FontData_write v = Ok (stream_bytes (font_records v)) /\
  forall rs checked, Inserted (map fst FontData_arms) (font_records v) rs -> FontData_read checked (stream_bytes rs) = Ok v.
Proof.
  intros H1 H2 H3. assert (H : FontData_ok v = true).
  { unfold FontData_ok, data_ok. rewrite !andb_true_iff, !string_fits_iff, size_fits_iff. repeat split; first [apply H1|apply H2|exact H3]. }
  pose proof (FontData_steps v H) as HS. pose proof (FontData_wapp v H) as HW. rewrite font_recs in *. split.
  - apply (written _ _ _ _ _ HS HW). unfold FontData_write_m. closes.
  - intros rs c HI. unfold FontData_read, FontData_loop. rewrite (run_reader_reads _ _ _ (inserted_stream _ _ _ _ HS _ HI)). reflexivity.
Qed.
Lemma font_resave checked b v : size_fits (zlen b) -> FontData_read checked b = Ok v ->
  exists b', FontData_write v = Ok b' /\ forall checked', FontData_read checked' b' = Ok v.
Proof.
  intros Hb E. apply size_fits_iff in Hb. unfold FontData_read in E. destruct (run_reader FontData_loop checked b) as [s|] eqn:Er; [|discriminate].
  cbn [rbind] in E. injection E as <-. apply FontData_roundtrip, (run_reader_yields _ _ FontData_yields _ _ _ Hb Er).
Qed.
Lemma font_terminates checked b : FontData_read checked b <> OutOfFuel.
Proof.
  intros E. apply (run_reader_term _ FontData_term checked b). unfold FontData_read in E.
  destruct (run_reader FontData_loop checked b) as [s|f]; [discriminate|]. cbn [rbind] in E. injection E as ->. reflexivity.
Qed.

(** ** Custom info tags *)
Lemma info_tags_stored l : Forall string_fits l ->
  CustomInfoTags_write l = Ok (stream_bytes (map (fun s => ("CUST"%string, string_payload s)) l)) /\
  forall rs checked, Inserted ["CUST"%string] (map (fun s => ("CUST"%string, string_payload s)) l) rs ->
    CustomInfoTags_read checked (stream_bytes rs) = Ok l.
Proof.
  intros H. assert (H' : forallb str_ok l = true) by (apply (forallb_iff _ _ _ string_fits_iff); exact H).
  pose proof (CustomInfoTags_steps l H') as HS. pose proof (CustomInfoTags_wapp l H') as HW. rewrite info_tags_recs in *. split.
  - apply (written _ _ _ _ _ HS HW). unfold CustomInfoTags_write_m. closes.
  - intros rs c HI. apply run_reader_reads. pose proof (Steps_data_inserted _ _ _ _ HS _ HI) as H2.
    rewrite <- (stream_enc_tags _ (Steps_recs_valid _ _ _ _ H2)). apply loop_reads, H2.
Qed.
Lemma info_tags_resave checked b v : size_fits (zlen b) -> CustomInfoTags_read checked b = Ok v ->
  exists b', CustomInfoTags_write v = Ok b' /\ forall checked', CustomInfoTags_read checked' b' = Ok v.
Proof.
  intros Hb E. apply size_fits_iff in Hb. apply CustomInfoTags_roundtrip, (run_reader_yields _ _ CustomInfoTags_yields _ _ _ Hb E).
Qed.
Lemma info_tags_terminates checked b : CustomInfoTags_read checked b <> OutOfFuel.
Proof. apply run_reader_term, CustomInfoTags_term. Qed.

(** ** Materials *)
Lemma material_stored m : string_fits (Material_name m) ->
  run_writer (Material_write m) = Ok (stream_bytes (material_records m)) /\
  forall rs checked, Inserted (map fst Material_arms) (material_records m) rs -> run_reader Material_read checked (stream_bytes rs) = Ok m.
Proof.
  intros H. assert (H' : Material_ok m = true) by (apply string_fits_iff; exact H).
  pose proof (Material_steps m H') as HS. pose proof (Material_wapp m H') as HW. rewrite material_recs in *. split.
  - apply (written _ _ _ _ _ HS HW). unfold Material_write. closes.
  - intros rs c HI. apply run_reader_reads, (inserted_stream _ _ _ _ HS _ HI).
Qed.
Lemma material_resave checked b m : size_fits (zlen b) -> run_reader Material_read checked b = Ok m ->
  exists b', run_writer (Material_write m) = Ok b' /\ forall checked', run_reader Material_read checked' b' = Ok m.
Proof.
  intros Hb E. apply size_fits_iff in Hb. pose proof (run_reader_yields _ _ Material_yields _ _ _ Hb E) as H.
  exists (Material_bytes m). split; [apply Material_writes, H|]. intros c. apply run_reader_reads, Material_reads, H.
Qed.
Lemma flat_map_eq {A B} (f g : A -> list B) l : (forall x, In x l -> f x = g x) -> flat_map f l = flat_map g l.
Proof. induction l as [|x l IH]; intros H; [reflexivity|]. cbn [flat_map]. rewrite H by (left; reflexivity). rewrite IH by (intros; apply H; right; assumption). reflexivity. Qed.
Lemma legacy_materials_stored l : Forall (fun m => short_name (sm_name m)) l ->
  concat_res SaveMaterial_write l = Ok (flat_map legacy_material_layout l) /\
  forall rest, cu_repeat (List.length l) SaveMaterial_read (flat_map legacy_material_layout l ++ rest) = Ok (l, rest).
Proof.
  intros H. rewrite Forall_forall in H. rewrite <- (flat_map_eq SaveMaterial_bytes) by (intros x Hx; apply legacy_material_layout_eq, H, Hx). split.
  - apply concat_res_ok. intros x Hx. apply SaveMaterial_writes, short_name_iff, H, Hx.
  - intros rest. apply CGets_repeat. intros x Hx. apply SaveMaterial_gets, short_name_iff, H, Hx.
Qed.
Lemma legacy_physics_stored l : Forall (fun m => short_name (sp_name m)) l ->
  concat_res SavePhysicsMaterial_write l = Ok (flat_map legacy_physics_layout l) /\
  forall rest, cu_repeat (List.length l) SavePhysicsMaterial_read (flat_map legacy_physics_layout l ++ rest) = Ok (l, rest).
Proof.
  intros H. rewrite Forall_forall in H. rewrite <- (flat_map_eq SavePhysicsMaterial_bytes) by (intros x Hx; apply legacy_physics_layout_eq, H, Hx). split.
  - apply concat_res_ok. intros x Hx. apply SavePhysicsMaterial_writes, short_name_iff, H, Hx.
  - intros rest. apply CGets_repeat. intros x Hx. apply SavePhysicsMaterial_gets, short_name_iff, H, Hx.
Qed.
Definition set_sm_name (s : rstring) (m : SaveMaterial) : SaveMaterial :=
  mkSaveMaterial s (sm_base_color m) (sm_glossy_color m) (sm_clearcoat_color m) (sm_wrap_lighting m) (sm_is_metal m) (sm_roughness m)
    (sm_glossy_image_lerp m) (sm_edge m) (sm_thickness m) (sm_opacity m) (sm_opacity_active_edge_alpha m).
Lemma legacy_name_cut m : Forall latin1_char (sm_name m) ->
  exists b, SaveMaterial_write m = Ok b /\ forall rest, SaveMaterial_read (b ++ rest) = Ok (set_sm_name (firstn 31 (sm_name m)) m, rest).
Proof.
  intros H. apply latin1_ok_chars in H. set (m' := set_sm_name (firstn 31 (sm_name m)) m).
  assert (H' : SaveMaterial_ok m' = true) by (unfold SaveMaterial_ok; apply sname_cut, H).
  exists (SaveMaterial_bytes m'). split; [|apply SaveMaterial_gets, H'].
  rewrite <- (SaveMaterial_writes _ H'). unfold SaveMaterial_write, m', set_sm_name. cbn [sm_name sm_base_color sm_glossy_color sm_clearcoat_color sm_wrap_lighting sm_is_metal sm_roughness sm_glossy_image_lerp sm_edge sm_thickness sm_opacity sm_opacity_active_edge_alpha]. change MAX_NAME_BUFFER with 32. rewrite write_name_cut by exact H. reflexivity.
Qed.

(** ** Render probes *)
Lemma remaining_slice (a d : bytes) (r : rd) : match slice (a ++ d) (zlen a) (zlen (a ++ d) - zlen a) with Ok x => Ok (x, r) | Fail f => Fail f end = Ok (d, r).
Proof.
  rewrite zlen_app. replace (zlen a + zlen d - zlen a) with (zlen d) by lia.
  pose proof (slice_mid a d [] _ eq_refl) as HS. rewrite app_nil_r in HS. rewrite HS. reflexivity.
Qed.
Lemma probe_stored p : string_fits (RenderProbe_name (rp_probe p)) ->
  exists rs, run_writer (RenderProbeG_write p) = Ok (stream_bytes rs ++ rp_trailing p) /\
  forall rs' trailing checked, Inserted (map fst RenderProbe_arms) rs rs' ->
    run_reader RenderProbeG_read checked (stream_bytes rs' ++ trailing) = Ok (mkRenderProbeG (rp_probe p) trailing).
Proof.
  intros H. apply string_fits_iff in H. destruct p as [p d]. cbn [rp_probe rp_trailing] in *.
  set (rs := map (fun r => (rec_tag r, rec_p r)) (RenderProbe_recs p)).
  assert (E : RenderProbe_recs p = map rec_of rs).
  { unfold rs, RenderProbe_recs, orec. destruct (RenderProbe_roughness_clear p), (RenderProbe_disable_light_reflection p); reflexivity. }
  pose proof (RenderProbe_steps p H) as HS. rewrite E in HS. exists rs. split.
  - rewrite (RenderProbeG_writes (mkRenderProbeG p d) H). unfold RenderProbeG_bytes. cbn [rp_probe rp_trailing].
    rewrite E, (stream_enc_tags _ (Steps_recs_valid _ _ _ _ HS)). reflexivity.
  - intros rs' tr c HI. pose proof (Steps_inserted _ _ _ _ HS _ HI) as HS'.
    rewrite <- (stream_enc_tags _ (Steps_recs_valid _ _ _ _ HS')). apply run_reader_reads.
    intros c'. rewrite rd_new_at. unfold RenderProbeG_read. eexists.
    erewrite bindM_ok. 2:{ unfold disable_warn_remaining. reflexivity. }
    erewrite bindM_ok. 2:{ apply (read_arms_steps _ _ _ _ [] tr "" false c' HS'). discriminate. }
    erewrite bindM_ok. 2:{ unfold get_remaining, at_. cbn [r_data r_pos app]. apply remaining_slice. } reflexivity.
Qed.
Lemma probe_resave checked b p : size_fits (zlen b) -> run_reader RenderProbeG_read checked b = Ok p ->
  exists b', run_writer (RenderProbeG_write p) = Ok b' /\ forall checked', run_reader RenderProbeG_read checked' b' = Ok p.
Proof.
  intros Hb E. apply size_fits_iff in Hb. pose proof (run_reader_yields _ _ RenderProbeG_yields _ _ _ Hb E) as H.
  exists (RenderProbeG_bytes p). split; [apply RenderProbeG_writes, H|]. intros c. apply run_reader_reads, RenderProbeG_reads, H.
Qed.

(** From the specification of game data in SpecStructs.v to the facts of GameDataFacts.v. *)
From Coq Require Import SpecFloat.
From Verif Require Import Base Text Biff Quantize Common Enums ItemBase.
From Verif Require Import StructMaterial StructRenderProbe Structs.
From Verif Require Import BaseFacts TextFacts BiffFacts CommonFacts TermFacts QuantizeFacts EnumsFacts ItemBaseFacts.
From Verif Require Import StructMaterialFacts StructRenderProbeFacts StructBaseFacts StructsFacts LegacyFacts.
From Verif Require Import GDBounds GDDesktop GDCabinet GDPhysics GDScene GDBoundsFacts GDDesktopFacts GDCabinetFacts GDPhysicsFacts GDSceneFacts.
From Verif Require Import GameData GameDataFacts GameItemBaseFacts.
From Verif Require Import SpecBiff SpecItems RecordFacts SpecStructs StructsProps.

(** ** Representability *)
Lemma script_fits_ok s : script_fits s -> code_ok s = true.
Proof.
  intros (d & Hn & Hd & ->). unfold code_ok, code_bytes. rewrite swe_of_bytes_canonical, swe_bytes_roundtrip.
  apply size_fits_iff in Hd. rewrite Hd, andb_true_r. cbn [andb]. apply forallb_forall. intros x Hx.
  destruct x; try reflexivity. contradiction.
Qed.
Lemma dili_fits x : (exists q, w32_to_Z q <= 255 /\ x = dequantize_unsigned_8 q) -> dili_ok x = true.
Proof. intros (q & _ & ->). apply dili_dequantized. Qed.
Lemma tone_fits o : (forall n, o = Some (ToneMapper_Other n) -> 5 <= w32_to_Z n) -> opt_ok ToneMapper_ok o = true.
Proof.
  intros H. destruct o as [[]|]; try reflexivity. specialize (H n eq_refl). cbn [opt_ok ToneMapper_ok existsb]. lia.
Qed.
Lemma zlen_rec t p : zlen (tag_bytes t) = 4 -> zlen (enc_rec (R t p)) = 8 + zlen p.
Proof. intros H. unfold enc_rec, R, hdr. cbn [rec_tag rec_n rec_p]. rewrite !zlen_app, zlen_w32_bytes, H. lia. Qed.
Lemma zlen_string_bytes s : zlen (string_bytes s) = 4 + zlen s.
Proof. unfold string_bytes. rewrite lp_len, zlen_latin1_bytes. reflexivity. Qed.
Ltac fixed_lens :=
  repeat match goal with
  | |- context [zlen (w32_bytes ?x)] => change (zlen (w32_bytes x)) with 4
  | |- context [zlen (bool_bytes ?x)] => change (zlen (bool_bytes x)) with 4
  | |- context [zlen (color_bytes ?x)] => change (zlen (color_bytes x)) with 4
  | |- context [zlen (v4_bytes ?x)] => change (zlen (v4_bytes x)) with 16
  | |- context [zlen (enc [])] => change (zlen (enc [])) with 0
  | |- context [zlen (@nil byte)] => change (zlen (@nil byte)) with 0
  end.
Lemma zlen_Material_bytes m : zlen (Material_bytes m) = 224 + zlen (Material_name m).
Proof.
  unfold Material_bytes, Material_recs. cbn [app]. unfold endb. rewrite !enc_cons, !zlen_app, !zlen_rec by reflexivity.
  rewrite zlen_string_bytes. fixed_lens. lia.
Qed.
Lemma zlen_RenderProbe p : zlen (RenderProbeG_bytes p) <= 104 + zlen (RenderProbe_name (rp_probe p)) + zlen (rp_trailing p).
Proof.
  destruct p as [p d]. unfold RenderProbeG_bytes, RenderProbe_recs, orec. cbn [rp_probe rp_trailing].
  destruct (RenderProbe_roughness_clear p), (RenderProbe_disable_light_reflection p); cbn [app]; unfold endb;
    rewrite !enc_cons, !zlen_app, !zlen_rec by reflexivity; rewrite zlen_string_bytes; fixed_lens; lia.
Qed.
Lemma storable_ok v : storable v -> GameData_ok v = true.
Proof.
  intros ((C1 & C2) & (B1 & B2 & B3 & B4) & HS & (Q1 & Q2 & Q3)). unfold strings_fit in HS.
  destruct HS as (S1 & S2 & S3 & S4 & S5 & S6 & S7 & S8 & S9 & S10 & S11 & S12 & S13 & S14 & S15 & S16 & S17 & S18).
  assert (G : GameData_groups_ok v = true).
  { unfold GameData_groups_ok, GDBounds_ok, GDDesktop_ok, GDCabinet_ok, GDPhysics_ok, GDScene_ok.
    rewrite (proj2 (string_fits_iff _) S1), (proj2 (string_fits_iff _) S2), (proj2 (string_fits_iff _) S3),
      (proj2 (opt_ok_iff _ _ _ string_fits_iff) S4), (proj2 (string_fits_iff _) S5), (proj2 (string_fits_iff _) S6),
      (proj2 (string_fits_iff _) S7), (proj2 (opt_ok_iff _ _ _ string_fits_iff) S8), (proj2 (opt_ok_iff _ _ _ string_fits_iff) S9),
      (proj2 (string_fits_iff _) S10), (proj2 (string_fits_iff _) S11), (dili_fits _ Q1), (tone_fits _ Q2). reflexivity. }
  unfold GameData_ok. rewrite G. cbn [andb]. unfold GDTail_ok. rewrite !andb_true_iff. split; [split|].
  - unfold GDTail_sizes. rewrite andb_true_iff. split; [lia|]. revert C2. apply opt_ok_iff. intros x. apply Z.eqb_eq.
  - assert (M : forall l, Forall (fun m => short_name (sm_name m)) l -> zlen (flat_map SaveMaterial_bytes l) = 76 * zlen l).
    { intros l H. rewrite Forall_forall in H. apply zlen_flat_map. intros x Hx. apply zlen_SaveMaterial, short_name_iff, H, Hx. }
    assert (P : forall l, Forall (fun m => short_name (sp_name m)) l -> zlen (flat_map SavePhysicsMaterial_bytes l) = 48 * zlen l).
    { intros l H. rewrite Forall_forall in H. apply zlen_flat_map. intros x Hx. apply zlen_SavePhysicsMaterial, short_name_iff, H, Hx. }
    unfold GDTail_fits. rewrite !andb_true_iff. unfold data_ok. repeat split.
    + apply size_fits_iff. rewrite M by exact S12. exact B1.
    + destruct (gt_materials_physics_old (gd_tail v)) as [l|]; [|reflexivity]. cbn [opt_ok option_all] in *. apply size_fits_iff.
      rewrite P by exact S13. exact B2.
    + apply forallb_forall. intros x Hx. apply size_fits_iff. rewrite zlen_Material_bytes. rewrite Forall_forall in B3.
      specialize (B3 x Hx). unfold size_fits in *. lia.
    + apply forallb_forall. intros x Hx. apply size_fits_iff. rewrite Forall_forall in B4. specialize (B4 x Hx).
      pose proof (zlen_RenderProbe x). unfold size_fits in *. lia.
  - unfold GDTail_str. rewrite !andb_true_iff. repeat split.
    + revert S12. apply forallb_iff. intros x. apply short_name_iff.
    + revert S13. apply opt_ok_iff. intros l. apply forallb_iff. intros x. apply short_name_iff.
    + revert S14. apply forallb_iff. intros x. apply string_fits_iff.
    + revert S15. apply forallb_iff. intros x. apply string_fits_iff.
    + apply wide_fits_iff, S16.
    + lia.
    + revert S17. apply opt_ok_iff. intros x. apply size_fits_iff.
    + apply script_fits_ok, S18.
Qed.

(** ** Round trip *)
Lemma game_data_stored ver v : storable v ->
  exists b, GameData_write ver v = Ok b /\ forall checked, GameData_read ver checked b = Ok (GameData_stored ver v).
Proof.
  intros H. apply storable_ok in H. exists (GameData_bytes ver v). split; [apply GameData_writes, H|]. intros c. apply GameData_reads, H.
Qed.
Lemma stored_no_empty v : gt_materials v <> Some [] -> gt_render_probes v <> Some [] -> GDTail_stored v = v.
Proof.
  intros H1 H2. apply no_empty_stored; [destruct (gt_materials v) as [[|]|]|destruct (gt_render_probes v) as [[|]|]]; try reflexivity; congruence.
Qed.
Lemma set_gd_beta_same v : set_gd_beta (gd_beta v) v = v.
Proof. destruct v. reflexivity. Qed.
Lemma set_gd_tail_same v : set_gd_tail (gd_tail v) v = v.
Proof. destruct v. reflexivity. Qed.
Lemma beta_stored_spec ver v : beta_stored ver v = true <->
  ver = 1080 /\ gd_bg_enable_fss v <> None /\ (gd_beta v = true \/ GDBounds_camera_layout_mode (gd_bounds v) <> None).
Proof.
  unfold beta_stored. rewrite !andb_true_iff, orb_true_iff, Z.eqb_eq. unfold is_some.
  destruct (gd_bg_enable_fss v), (GDBounds_camera_layout_mode (gd_bounds v)), (gd_beta v); intuition congruence.
Qed.
Lemma game_data_equal ver v : storable v ->
  gt_materials (gd_tail v) <> Some [] -> gt_render_probes (gd_tail v) <> Some [] ->
  (gd_beta v = true -> ver = 1080 /\ gd_bg_enable_fss v <> None) ->
  (ver = 1080 -> gd_bg_enable_fss v <> None -> GDBounds_camera_layout_mode (gd_bounds v) <> None -> gd_beta v = true) ->
  exists b, GameData_write ver v = Ok b /\ forall checked, GameData_read ver checked b = Ok v.
Proof.
  intros H M P B C. destruct (game_data_stored ver v H) as (b & W & Rd). exists b. split; [exact W|]. intros c. rewrite (Rd c). f_equal.
  unfold GameData_stored. rewrite stored_no_empty by assumption.
  assert (E : beta_stored ver v = gd_beta v).
  { destruct (gd_beta v) eqn:Eb.
    - apply beta_stored_spec. destruct (B eq_refl). auto.
    - destruct (beta_stored ver v) eqn:E; [|reflexivity]. apply beta_stored_spec in E. destruct E as (E1 & E2 & [E3|E3]); [congruence|].
      specialize (C E1 E2 E3). congruence. }
  rewrite E, set_gd_beta_same, set_gd_tail_same. reflexivity.
Qed.
Lemma read_blocks_ok ver checked b v : size_fits (zlen b) -> GameData_read ver checked b = Ok v -> counters_agree v -> blocks_fit v ->
  GDTail_sizes (gd_tail v) = true /\ GDTail_fits (gd_tail v) = true.
Proof.
  intros Hb E [C1 C2] (B1 & B2 & B3 & B4). apply size_fits_iff in Hb.
  destruct (GameData_read_yields ver checked b v Hb E) as (Y1 & Y2 & Y3). split.
  - unfold GDTail_sizes. rewrite andb_true_iff. split; [lia|]. revert C2. apply opt_ok_iff. intros x. apply Z.eqb_eq.
  - unfold GDTail_read_ok, GDTail_str in Y2. split_all. unfold GDTail_fits, data_ok. rewrite !andb_true_iff. repeat split.
    + apply size_fits_iff. rewrite (zlen_flat_map _ 76); [exact B1|]. intros x Hx. apply zlen_SaveMaterial.
      match goal with H : forallb SaveMaterial_ok _ = true |- _ => rewrite forallb_forall in H; apply H, Hx end.
    + destruct (gt_materials_physics_old (gd_tail v)) as [l|]; [|reflexivity]. cbn [opt_ok option_all] in *. apply size_fits_iff.
      rewrite (zlen_flat_map _ 48); [exact B2|]. intros x Hx. apply zlen_SavePhysicsMaterial.
      match goal with H : forallb SavePhysicsMaterial_ok _ = true |- _ => rewrite forallb_forall in H; apply H, Hx end.
    + apply forallb_forall. intros x Hx. apply size_fits_iff. rewrite zlen_Material_bytes. rewrite Forall_forall in B3.
      specialize (B3 x Hx). unfold size_fits in *. lia.
    + apply forallb_forall. intros x Hx. apply size_fits_iff. rewrite Forall_forall in B4. specialize (B4 x Hx).
      pose proof (zlen_RenderProbe x). unfold size_fits in *. lia.
Qed.
Lemma game_data_resave ver checked b v : size_fits (zlen b) -> GameData_read ver checked b = Ok v ->
  counters_agree v -> blocks_fit v ->
  exists b', GameData_write ver v = Ok b' /\ forall checked', GameData_read ver checked' b' = Ok (set_gd_beta (beta_stored ver v) v).
Proof.
  intros Hb E C B. destruct (read_blocks_ok _ _ _ _ Hb E C B) as [H1 H2]. apply size_fits_iff in Hb.
  apply (GameData_resave ver checked b v Hb E H1 H2).
Qed.
Lemma read_game_data_ok ver checked b v : size_fits (zlen b) -> GameData_read ver checked b = Ok v -> counters_agree v -> blocks_fit v ->
  GameData_ok v = true /\ GDTail_stored (gd_tail v) = gd_tail v.
Proof.
  intros Hb E C B. destruct (read_blocks_ok _ _ _ _ Hb E C B) as [H1 H2]. apply size_fits_iff in Hb.
  destruct (GameData_read_yields ver checked b v Hb E) as (Y1 & Y2 & Y3). unfold GDTail_read_ok in Y2. split_all. split.
  - unfold GameData_ok, GDTail_ok. rewrite Y1, H1, H2. cbn [andb]. assumption.
  - apply no_empty_stored; assumption.
Qed.
Lemma game_data_terminates ver checked b : GameData_read ver checked b <> OutOfFuel.
Proof.
  intros E. apply (run_reader_term _ (GameData_term ver) checked b). unfold GameData_read in E.
  destruct (run_reader (GameData_loop ver) checked b) as [s|f]; [discriminate|]. cbn [rbind] in E. injection E as ->. reflexivity.
Qed.

(** ** Unknown records *)
Definition rec_of_tag (r : rec) : string * bytes := (rec_tag r, rec_p r).
Lemma Steps_prev ver G p q rs G' p' : Steps (GameData_handler ver) (G, p) rs (G', p') ->
  match rs with r :: _ => rec_tag r <> "EFSS"%string | [] => True end ->
  exists q', Steps (GameData_handler ver) (G, q) rs (G', q').
Proof.
  intros H Hd. inversion H as [|t n pl s [G1 p1] rs0 s'' Hr Hh HS]; subst; [exists q; constructor|].
  cbn [rec_tag] in Hd. apply String.eqb_neq in Hd. exists p'.
  assert (Ep : forall pre rest w c, rest <> [] -> GameData_handler ver t (G, p) (at_ pre (pl ++ rest) n t w c) = GameData_handler ver t (G, q) (at_ pre (pl ++ rest) n t w c)).
  { intros. unfold GameData_handler. rewrite Hd. reflexivity. }
  econstructor; [exact Hr| |exact HS]. intros pre rest w c Hrest. rewrite <- Ep by exact Hrest. apply Hh, Hrest.
Qed.
Definition plain (r : rec) : Prop := rec_n r = zlen (rec_p r).
Lemma plain_list l : Forall plain l -> map rec_of (map rec_of_tag l) = l.
Proof.
  induction 1 as [|[t n p] l H _ IH]; [reflexivity|]. cbn [map]. rewrite IH. f_equal. unfold plain in H. cbn in H. subst. reflexivity.
Qed.
Lemma plain_orec {A} (o : option A) f : (forall x, plain (f x)) -> Forall plain (orec o f).
Proof. intros H. destruct o; cbn [orec]; repeat constructor; apply H. Qed.
Lemma plain_map {A} (l : list A) f : (forall x, plain (f x)) -> Forall plain (map f l).
Proof. intros H. apply Forall_forall. intros x Hx. apply in_map_iff in Hx. destruct Hx as (y & <- & _). apply H. Qed.
Ltac plains := repeat first
  [ apply Forall_nil | apply Forall_cons; [reflexivity|]
  | apply Forall_app; split | apply plain_orec; intros; reflexivity | apply plain_map; intros; reflexivity ].
Definition before_code (ver : Z) (v : GameData) : list rec :=
  GDBounds_recs (gd_bounds v) ++
  (if (1080 <=? ver) && negb (gd_beta v) then efss_rec v else []) ++
  GDDesktop_recs (gd_desktop v) ++
  (if (ver <? 1080) || gd_beta v then efss_rec v else []) ++
  GDCabinet_recs (gd_cabinet v) ++ GDPhysics_recs (gd_physics v) ++ GDScene_recs (gd_scene v) ++
  let v := gd_tail v in
  R "MASI" (w32_bytes (gt_materials_size v)) ::
  R "MATE" (flat_map SaveMaterial_bytes (gt_materials_old v)) ::
  orec (gt_materials_physics_old v) (fun l => R "PHMA" (flat_map SavePhysicsMaterial_bytes l)) ++
  map (fun x => R "MATR" (Material_bytes x)) (olist (gt_materials v)) ++
  map (fun x => R "RPRB" (RenderProbeG_bytes x)) (olist (gt_render_probes v)) ++
  R "SEDT" (w32_bytes (gt_gameitems_size v)) ::
  R "SSND" (w32_bytes (gt_sounds_size v)) ::
  R "SIMG" (w32_bytes (gt_images_size v)) ::
  R "SFNT" (w32_bytes (gt_fonts_size v)) ::
  R "SCOL" (w32_bytes (gt_collections_size v)) ::
  R "NAME" (wstring_bytes (gt_name v)) ::
  R "CCUS" (write_colors (gt_custom_colors v)) ::
  orec (gt_protection_data v) (fun d => R "SECB" d).
Definition after_code (v : GameData) : list rec := orec (gt_locked (gd_tail v)) (fun x => R "TLCK" (w32_bytes x)) ++ [].
Lemma split_code ver v : GameData_recs ver v = before_code ver v ++ R0 "CODE" (lp_bytes (code_bytes (gt_code (gd_tail v)))) :: after_code v.
Proof.
  unfold GameData_recs, before_code, after_code, GDTail_recs. cbv zeta. repeat (rewrite <- app_assoc || rewrite <- app_comm_cons). reflexivity.
Qed.
Lemma before_plain ver v : Forall plain (before_code ver v).
Proof.
  unfold before_code, GDBounds_recs, GDDesktop_recs, GDCabinet_recs, GDPhysics_recs, GDScene_recs, efss_rec.
  destruct ((1080 <=? ver) && negb (gd_beta v)), ((ver <? 1080) || gd_beta v); plains.
Qed.
Lemma after_plain v : Forall plain (after_code v).
Proof. unfold after_code. plains. Qed.

Definition GameData_tags : list string := "EFSS"%string :: map fst GameData_arms.
Lemma gd_unknown ver t p g prev : ~ In t GameData_tags -> Handles (GameData_handler ver) t (zlen p) p (g, prev) (g, t).
Proof.
  intros H pre rest w c Hr. unfold GameData_handler.
  assert (E : (t =? "EFSS")%string = false) by (apply String.eqb_neq; intros ->; apply H; left; reflexivity). rewrite E.
  assert (L : lookup t GameData_arms = None) by (apply lookup_none; intros Hi; apply H; right; exact Hi).
  unfold rbindM. rewrite (dispatch_data_unknown GameData_arms t p g L pre rest w c Hr). reflexivity.
Qed.
Lemma Steps_cons_inv {S} (h : string -> S -> rd_M S) r rs s s' : Steps h s (r :: rs) s' ->
  exists m, rec_ok (rec_tag r) (rec_n r) = true /\ Handles h (rec_tag r) (rec_n r) (rec_p r) s m /\ Steps h m rs s'.
Proof. intros H. inversion H; subst. eexists. repeat split; eassumption. Qed.
Lemma Steps_gd_inserted ver rs rs' : InsertedBut "EFSS" GameData_tags rs rs' ->
  forall G p G' p', Steps (GameData_handler ver) (G, p) (map rec_of rs) (G', p') ->
  exists q', Steps (GameData_handler ver) (G, p) (map rec_of rs') (G', q').
Proof.
  induction 1 as [|r rs rs' _ IH|r rs rs' Hv Hk Hh _ IH]; intros G p G' p' HS.
  - exists p'. exact HS.
  - cbn [map] in *. apply Steps_cons_inv in HS. destruct HS as ([G1 p1] & Hr & Hh & HS1).
    destruct (IH _ _ _ _ HS1) as [q' HQ]. exists q'. destruct r as [t pl]. eapply Steps_cons; [exact Hr|exact Hh|exact HQ].
  - destruct r as [t pl]. destruct (valid_rec_ok t pl Hv) as (Ht & Hs & He). cbn [fst] in Hk.
    destruct (IH _ _ _ _ HS) as [q1 HQ]. destruct (Steps_prev _ _ _ t _ _ _ HQ) as [q2 HQ2].
    { destruct rs' as [|[t' p2] rs']; [exact I|exact Hh]. }
    exists q2. cbn [map]. eapply Steps_cons; [exact (rec_ok_of t pl Ht Hs He)|apply gd_unknown, Hk|exact HQ2].
Qed.
Lemma Steps_app_inv {S} (h : string -> S -> rd_M S) a b s s' : Steps h s (a ++ b) s' -> exists m, Steps h s a m /\ Steps h m b s'.
Proof.
  revert s. induction a as [|r a IH]; intros s H; [exists s; split; [constructor|exact H]|].
  cbn [app] in H. apply Steps_cons_inv in H. destruct H as (s1 & Hr & Hh & HS). destruct (IH s1 HS) as (m & HA & HB). exists m.
  split; [|exact HB]. destruct r. econstructor; [exact Hr|exact Hh|exact HA].
Qed.
Lemma layout_enc a code b : Forall (fun r => valid_tag (fst r)) a -> Forall (fun r => valid_tag (fst r)) b ->
  enc ((map rec_of a ++ R0 "CODE" (lp_bytes code) :: map rec_of b) ++ [endb]) = game_data_layout a code b.
Proof.
  assert (F : forall l, Forall (fun r => valid_tag (fst r)) l -> enc (map rec_of l) = flat_map record_bytes l).
  { induction 1 as [|[t p] rs H _ IH]; [reflexivity|]. cbn [map flat_map]. rewrite enc_cons, IH. f_equal. apply record_bytes_enc, H. }
  intros Ha Hb. unfold game_data_layout. rewrite !enc_app, enc_cons, !F by assumption. rewrite <- !app_assoc. f_equal.
  unfold lp_bytes. rewrite le32_w32. reflexivity.
Qed.
Lemma game_data_inserted ver v : storable v ->
  exists before script after,
    GameData_write ver v = Ok (game_data_layout before script after) /\
    forall before' after' checked, InsertedBut "EFSS" GameData_tags before before' -> InsertedBut "EFSS" GameData_tags after after' ->
      GameData_read ver checked (game_data_layout before' script after') = Ok (GameData_stored ver v).
Proof.
  intros H. apply storable_ok in H. destruct (GameData_steps ver v H) as [p HS]. pose proof (GameData_writes ver v H) as HW.
  unfold GameData_bytes in HW. rewrite split_code in HS, HW.
  rewrite <- (plain_list _ (before_plain ver v)), <- (plain_list _ (after_plain v)) in HS, HW.
  set (a := map rec_of_tag (before_code ver v)) in *. set (b := map rec_of_tag (after_code v)) in *.
  apply Steps_app_inv in HS. destruct HS as ([G1 p1] & HA & HCB).
  apply Steps_cons_inv in HCB. destruct HCB as ([G2 p2] & Hr & Hh & HB).
  exists a, (code_bytes (gt_code (gd_tail v))), b. split.
  - rewrite HW, layout_enc; [reflexivity|eapply Steps_recs_valid; exact HA|eapply Steps_recs_valid; exact HB].
  - intros a' b' c IA IB. destruct (Steps_gd_inserted _ _ _ IA _ _ _ _ HA) as [q1 HA']. destruct (Steps_gd_inserted _ _ _ IB _ _ _ _ HB) as [q2 HB'].
    rewrite <- layout_enc; [|eapply Steps_recs_valid; exact HA'|eapply Steps_recs_valid; exact HB'].
    unfold GameData_read, GameData_loop.
    assert (HC : Steps (GameData_handler ver) (G1, p1) (R0 "CODE" (lp_bytes (code_bytes (gt_code (gd_tail v)))) :: map rec_of b') (GameData_stored ver v, q2)).
    { eapply Steps_cons; [exact Hr|exact Hh|exact HB']. }
    destruct (Steps_prev _ _ _ q1 _ _ _ HC) as [q3 HC']; [discriminate|].
    erewrite run_reader_reads; [|apply loop_reads; eapply Steps_app; [exact HA'|exact HC']]. reflexivity.
Qed.

(** ** The position of EFSS *)
Definition rest_recs (v : GameData) : list rec :=
  GDCabinet_recs (gd_cabinet v) ++ GDPhysics_recs (gd_physics v) ++ GDScene_recs (gd_scene v) ++
  let v := gd_tail v in
  R "MASI" (w32_bytes (gt_materials_size v)) ::
  R "MATE" (flat_map SaveMaterial_bytes (gt_materials_old v)) ::
  orec (gt_materials_physics_old v) (fun l => R "PHMA" (flat_map SavePhysicsMaterial_bytes l)) ++
  map (fun x => R "MATR" (Material_bytes x)) (olist (gt_materials v)) ++
  map (fun x => R "RPRB" (RenderProbeG_bytes x)) (olist (gt_render_probes v)) ++
  R "SEDT" (w32_bytes (gt_gameitems_size v)) ::
  R "SSND" (w32_bytes (gt_sounds_size v)) ::
  R "SIMG" (w32_bytes (gt_images_size v)) ::
  R "SFNT" (w32_bytes (gt_fonts_size v)) ::
  R "SCOL" (w32_bytes (gt_collections_size v)) ::
  R "NAME" (wstring_bytes (gt_name v)) ::
  R "CCUS" (write_colors (gt_custom_colors v)) ::
  orec (gt_protection_data v) (fun d => R "SECB" d).
Lemma efss_position ver v x : storable v -> gd_bg_enable_fss v = Some x ->
  exists r1 r2 script after,
    GameData_write ver v = Ok (game_data_layout (r1 ++ ("EFSS"%string, bool_payload x) :: r2) script after) /\
    (late_position ver v <-> In "ROTA"%string (map fst r1)) /\ (~ late_position ver v <-> In "ROTA"%string (map fst r2)).
Proof.
  intros H Ef. apply storable_ok in H. pose proof (GameData_writes ver v H) as HW. destruct (GameData_steps ver v H) as [p HS].
  unfold GameData_bytes in HW. rewrite split_code in HS, HW.
  rewrite <- (plain_list _ (before_plain ver v)), <- (plain_list _ (after_plain v)) in HS, HW.
  apply Steps_app_inv in HS. destruct HS as ([G1 p1] & HA & HCB). apply Steps_cons_inv in HCB. destruct HCB as ([G2 p2] & _ & _ & HB).
  rewrite layout_enc in HW by (eapply Steps_recs_valid; eassumption). unfold late_position.
  assert (NB : ~ In "ROTA"%string (map fst (map rec_of_tag (GDBounds_recs (gd_bounds v))))).
  { unfold GDBounds_recs. destruct (GDBounds_camera_layout_mode (gd_bounds v)); cbn; intuition discriminate. }
  assert (ID : In "ROTA"%string (map fst (map rec_of_tag (GDDesktop_recs (gd_desktop v))))).
  { unfold GDDesktop_recs. rewrite map_app, map_app. apply in_or_app. right. left. reflexivity. }
  assert (NR : ~ In "ROTA"%string (map fst (map rec_of_tag (rest_recs v)))).
  { rewrite map_map. change (fun x => fst (rec_of_tag x)) with rec_tag. unfold rest_recs, GDCabinet_recs, GDPhysics_recs, GDScene_recs. cbv zeta.
    assert (NO : forall A (o : option A) f, (forall x, rec_tag (f x) <> "ROTA"%string) -> ~ In "ROTA"%string (map rec_tag (orec o f))).
    { intros A o f Hf Hi. destruct o; cbn in Hi; [|exact Hi]. destruct Hi as [Hi|[]]. exact (Hf _ Hi). }
    assert (NM : forall A (l : list A) f, (forall x, rec_tag (f x) <> "ROTA"%string) -> ~ In "ROTA"%string (map rec_tag (map f l))).
    { intros A l f Hf Hi. rewrite map_map in Hi. apply in_map_iff in Hi. destruct Hi as (y & E & _). exact (Hf _ E). }
    assert (NC : forall r l, rec_tag r <> "ROTA"%string -> ~ In "ROTA"%string (map rec_tag l) -> ~ In "ROTA"%string (map rec_tag (r :: l))).
    { intros r l H1 H2 [H3|H3]; [exact (H1 H3)|exact (H2 H3)]. }
    assert (NA : forall l l', ~ In "ROTA"%string (map rec_tag l) -> ~ In "ROTA"%string (map rec_tag l') -> ~ In "ROTA"%string (map rec_tag (l ++ l'))).
    { intros l l' H1 H2 H3. rewrite map_app in H3. apply in_app_or in H3. tauto. }
    repeat first [apply NC; [discriminate|] | apply NA | apply NO; intros; discriminate | apply NM; intros; discriminate | exact (fun H => H)]. }
  destruct ((ver <? 1080) || gd_beta v) eqn:EL.
  - exists (map rec_of_tag (GDBounds_recs (gd_bounds v) ++ GDDesktop_recs (gd_desktop v))), (map rec_of_tag (rest_recs v)),
      (code_bytes (gt_code (gd_tail v))), (map rec_of_tag (after_code v)).
    assert (L : ver < 1080 \/ gd_beta v = true) by (apply orb_true_iff in EL; destruct EL; [left; lia|right; assumption]).
    split; [|split].
    + rewrite HW. f_equal. f_equal. unfold before_code. rewrite EL.
      replace ((1080 <=? ver) && negb (gd_beta v)) with false by (destruct L as [L|L]; [replace (1080 <=? ver) with false by lia; reflexivity|rewrite L, andb_false_r; reflexivity]).
      unfold efss_rec. rewrite Ef. cbn [orec app]. rewrite !map_app. cbn [map]. rewrite <- !app_assoc. rewrite <- bool_payload_eq. unfold rest_recs. rewrite !map_app. reflexivity.
    + rewrite !map_app. split; [intros _; apply in_or_app; right; exact ID|intros _; exact L].
    + split; [tauto|]. intros Hi. contradiction.
  - exists (map rec_of_tag (GDBounds_recs (gd_bounds v))), (map rec_of_tag (GDDesktop_recs (gd_desktop v) ++ rest_recs v)),
      (code_bytes (gt_code (gd_tail v))), (map rec_of_tag (after_code v)).
    apply orb_false_iff in EL. destruct EL as [E1 E2].
    assert (L : ~ (ver < 1080 \/ gd_beta v = true)) by (intros [L|L]; [lia|congruence]).
    split; [|split].
    + rewrite HW. f_equal. f_equal. unfold before_code. rewrite E1, E2.
      replace ((1080 <=? ver) && negb false) with true by (replace (1080 <=? ver) with true by lia; reflexivity).
      unfold efss_rec. rewrite Ef. cbn [orec app orb]. rewrite !map_app. cbn [map]. rewrite <- bool_payload_eq. unfold rest_recs. rewrite !map_app. reflexivity.
    + split; [tauto|]. intros Hi. contradiction.
    + rewrite !map_app. split; [intros _; apply in_or_app; left; exact ID|intros _; exact L].
Qed.
Lemma olist_opt_of {A} (o : option (list A)) : olist (opt_of (olist o)) = olist o.
Proof. destruct o as [[|]|]; reflexivity. Qed.
Lemma stored_bytes ver v : GameData_ok v = true -> beta_stored ver v = gd_beta v -> GameData_write ver (GameData_stored ver v) = GameData_write ver v.
Proof.
  intros H E. rewrite (GameData_writes ver v H). unfold GameData_stored. rewrite E, set_gd_beta_same.
  rewrite GameData_writes.
  - f_equal. unfold GameData_bytes, GameData_recs, GDTail_recs, efss_rec. destruct v as [vb vd vc vp vs vt vf be].
    cbn [set_gd_tail gd_bounds gd_desktop gd_cabinet gd_physics gd_scene gd_tail gd_bg_enable_fss gd_beta].
    assert (E1 : olist (gt_materials (GDTail_stored vt)) = olist (gt_materials vt)) by (destruct vt; apply olist_opt_of).
    assert (E2 : olist (gt_render_probes (GDTail_stored vt)) = olist (gt_render_probes vt)) by (destruct vt; apply olist_opt_of).
    rewrite E1, E2. destruct vt. reflexivity.
  - revert H. unfold GameData_ok, GameData_groups_ok, GDTail_ok, GDTail_sizes, GDTail_fits, GDTail_str. destruct v as [vb vd vc vp vs vt vf be].
    cbn [set_gd_tail gd_bounds gd_desktop gd_cabinet gd_physics gd_scene gd_tail gd_bg_enable_fss gd_beta].
    assert (E1 : olist (gt_materials (GDTail_stored vt)) = olist (gt_materials vt)) by (destruct vt; apply olist_opt_of).
    assert (E2 : olist (gt_render_probes (GDTail_stored vt)) = olist (gt_render_probes vt)) by (destruct vt; apply olist_opt_of).
    rewrite E1, E2. destruct vt. exact (fun H => H).
Qed.
Lemma efss_kept ver v : storable v -> ver <= 1080 -> (ver < 1080 -> gd_beta v = false) -> gd_bg_enable_fss v <> None ->
  (ver = 1080 -> GDBounds_camera_layout_mode (gd_bounds v) = None) ->
  exists b v', GameData_write ver v = Ok b /\ (forall checked, GameData_read ver checked b = Ok v') /\
    gd_bg_enable_fss v' = gd_bg_enable_fss v /\ gd_beta v' = gd_beta v /\ GameData_write ver v' = Ok b.
Proof.
  intros H Hv Hb Hf Hc. destruct (game_data_stored ver v H) as (b & W & Rd). exists b, (GameData_stored ver v).
  assert (E : beta_stored ver v = gd_beta v).
  { destruct (gd_beta v) eqn:Eb.
    - apply beta_stored_spec. destruct (Z.eq_dec ver 1080) as [->|Hne]; [auto|]. specialize (Hb ltac:(lia)). discriminate.
    - destruct (beta_stored ver v) eqn:E; [|reflexivity]. apply beta_stored_spec in E. destruct E as (E1 & E2 & [E3|E3]); [congruence|].
      elim E3. exact (Hc E1). }
  split; [exact W|]. split; [exact Rd|]. split; [reflexivity|]. split; [exact E|].
  rewrite <- W. apply stored_bytes; [apply storable_ok, H|exact E].
Qed.
Lemma stored_form_differs ver v :
  let v' := GameData_stored ver v in
  gd_bounds v' = gd_bounds v /\ gd_desktop v' = gd_desktop v /\ gd_cabinet v' = gd_cabinet v /\ gd_physics v' = gd_physics v /\
  gd_scene v' = gd_scene v /\ gd_bg_enable_fss v' = gd_bg_enable_fss v /\
  gd_tail v' = set_gt_materials (gt_materials (gd_tail v')) (set_gt_render_probes (gt_render_probes (gd_tail v')) (gd_tail v)) /\
  list_of (gt_materials (gd_tail v')) = list_of (gt_materials (gd_tail v)) /\
  list_of (gt_render_probes (gd_tail v')) = list_of (gt_render_probes (gd_tail v)).
Proof.
  cbv zeta. repeat split; unfold GameData_stored; cbn [gd_tail set_gd_tail set_gd_beta].
  - change (@list_of Material) with (@olist Material). rewrite <- (olist_opt_of (gt_materials (gd_tail v))). destruct v as [vb vd vc vp vs vt vf be]. destruct vt; reflexivity.
  - change (@list_of RenderProbeWithGarbage) with (@olist RenderProbeWithGarbage). rewrite <- (olist_opt_of (gt_render_probes (gd_tail v))). destruct v as [vb vd vc vp vs vt vf be]. destruct vt; reflexivity.
Qed.
Lemma flag_after_reading ver v : storable v ->
  exists b v', GameData_write ver v = Ok b /\ (forall checked, GameData_read ver checked b = Ok v') /\
    (gd_beta v' = true <-> ver = 1080 /\ gd_bg_enable_fss v <> None /\
       (gd_beta v = true \/ GDBounds_camera_layout_mode (gd_bounds v) <> None)).
Proof.
  intros H. destruct (game_data_stored ver v H) as (b & W & Rd). exists b, (GameData_stored ver v). split; [exact W|]. split; [exact Rd|].
  rewrite <- beta_stored_spec. reflexivity.
Qed.
Lemma default_storable v : gd_physics v = GDPhysics_default -> gd_scene v = GDScene_default -> gd_tail v = GDTail_default ->
  storable v.
Proof.
  intros E1 E2 E3. unfold storable, counters_agree, blocks_fit, strings_fit, scalars_fit. rewrite E1, E2, E3.
  assert (SF : forall s : rstring, latin1_ok s && fits (zlen s) = true -> string_fits s) by (intros s; apply string_fits_iff).
  split; [|split; [|split]].
  - split; [reflexivity|exact I].
  - split; [reflexivity|]. split; [exact I|]. split; apply Forall_nil.
  - do 11 (split; [first [exact I | apply SF; reflexivity]|]). split; [apply Forall_nil|]. split; [exact I|]. split; [apply Forall_nil|]. split; [apply Forall_nil|].
    split; [apply wide_fits_iff; reflexivity|]. split; [exact I|]. exists []. split; [intros []|]. split; reflexivity.
  - split; [|split; [discriminate|reflexivity]]. exists (Z_to_w32 255). split; [vm_compute; discriminate|]. vm_compute. reflexivity.
Qed.
Lemma camera_layout_mode : exists v b v' b',
  storable v /\ gd_beta v = false /\ GameData_write 1080 v = Ok b /\ (forall checked, GameData_read 1080 checked b = Ok v') /\
  gd_beta v' = true /\ GameData_write 1080 v' = Ok b' /\ b <> b'.
Proof.
  set (v := set_gd_bounds (set_GDBounds_camera_layout_mode (Some (Z_to_w32 1)) GDBounds_default) (set_gd_bg_enable_fss (Some true) GameData_default)).
  assert (S : storable v) by (apply default_storable; reflexivity).
  assert (S' : storable (set_gd_beta true v)) by (apply default_storable; reflexivity).
  exists v, (GameData_bytes 1080 v), (set_gd_beta true v), (GameData_bytes 1080 (set_gd_beta true v)).
  split; [exact S|]. split; [reflexivity|]. split; [apply GameData_writes, storable_ok, S|]. split.
  { intros c. rewrite (GameData_reads 1080 v (storable_ok v S) c). apply f_equal. unfold GameData_stored. rewrite stored_no_empty by discriminate.
    assert (B : beta_stored 1080 v = true) by (vm_compute; reflexivity). rewrite B. clear. subst v. generalize GameData_default. intros []. reflexivity. }
  split; [reflexivity|]. split; [apply GameData_writes, storable_ok, S'|].
  intros E. apply (f_equal (fun l => nth 64 l x00)) in E. vm_compute in E. discriminate.
Qed.
Lemma wrong_counter : exists v b, blocks_fit v /\ strings_fit v /\ scalars_fit v /\
  GameData_write 1081 v = Ok b /\ forall checked, GameData_read 1081 checked b = Panic.
Proof.
  set (v := set_gd_tail (set_gt_materials_size (Z_to_w32 1) GDTail_default) GameData_default).
  assert (S : storable GameData_default) by (apply default_storable; reflexivity). destruct S as (_ & S1 & S2 & S3).
  exists v, (match GameData_write 1081 v with Ok b => b | _ => [] end). split; [exact S1|]. split; [exact S2|]. split; [exact S3|].
  split; [vm_compute; reflexivity|]. intros []; vm_compute; reflexivity.
Qed.

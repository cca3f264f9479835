(** Proofs about whole tables: which tables survive being written and read, and what is hashed. *)
From Coq Require Import Permutation.
From Verif Require Import Base Text Biff Quantize Common Enums Structs GameItem GameData Image Sound Cfb TableInfo Vpx.
From Verif Require Import BaseFacts TextFacts BiffFacts CommonFacts ItemBaseFacts RecordFacts GameDataFacts GameDataProps GameItemFacts ImageProps SoundFacts.
From Verif Require Import GDBounds GDDesktop GDCabinet GDPhysics GDScene GDBoundsFacts GDDesktopFacts GDCabinetFacts GDPhysicsFacts GDSceneFacts.
From Verif Require Import ItemBase StructMaterial StructRenderProbe StructMaterialFacts StructRenderProbeFacts StructBaseFacts StructsFacts.
From Verif Require Import SpecBiff SpecItems SpecStructs SpecImage SpecSound StructsProps CfbFacts SpecVpx TableInfoFacts MacFacts VpxFacts SpecTable GameItemStored.

(** ** Game data as hashed *)
Definition not_code (r : rec) : Prop := rec_tag r <> "CODE"%string.
Lemma nc_orec {A} (o : option A) f : (forall x, not_code (f x)) -> Forall not_code (orec o f).
Proof. intros H. destruct o; cbn [orec]; repeat constructor; apply H. Qed.
Lemma nc_map {A} (l : list A) f : (forall x, not_code (f x)) -> Forall not_code (map f l).
Proof. intros H. apply Forall_forall. intros x Hx. apply in_map_iff in Hx. destruct Hx as (y & <- & _). apply H. Qed.
Ltac ncs := repeat first
  [ apply Forall_nil | apply Forall_cons; [discriminate|]
  | apply Forall_app; split | apply nc_orec; intros; discriminate | apply nc_map; intros; discriminate ].
Lemma before_nc ver v : Forall not_code (before_code ver v).
Proof.
  unfold before_code, GDBounds_recs, GDDesktop_recs, GDCabinet_recs, GDPhysics_recs, GDScene_recs, efss_rec.
  destruct ((1080 <=? ver) && negb (gd_beta v)), ((ver <? 1080) || gd_beta v); ncs.
Qed.
Lemma after_nc v : Forall not_code (after_code v).
Proof. unfold after_code. ncs. Qed.
Lemma Steps_valid_records {S} (h : string -> S -> rd_M S) rs s s' : Forall plain rs -> Steps h s rs s' -> Forall valid_record (map rec_of_tag rs).
Proof.
  intros HP HS. induction HS as [|t n p s s1 rs s2 Hr Hh HS IH]; cbn [map]; [constructor|]. inversion HP as [|r rs' H1 H2]; subst.
  constructor; [|apply IH, H2]. unfold rec_of_tag. cbn [rec_tag rec_p]. unfold plain in H1. cbn in H1. subst n.
  unfold rec_ok in Hr. apply andb_true_iff in Hr. destruct Hr as [Hr He]. apply andb_true_iff in Hr. destruct Hr as [Ht Hn].
  split; [apply tag_ok_valid, Ht|split]; cbn [fst snd].
  - apply negb_true_iff in He. apply String.eqb_neq, He.
  - unfold size_ok, two32 in Hn. change (2 ^ 32) with 4294967296. lia.
Qed.
Lemma game_data_hashed_ok ver v : GameData_ok v = true -> exists before script after,
  GameData_write ver v = Ok (game_data_layout before script after) /\ Forall valid_record before /\ Forall valid_record after /\
  ~ In "CODE"%string (map fst (before ++ after)) /\ data_fits script /\ gt_code (gd_tail v) = swe_of_bytes script.
Proof.
  intros HO. destruct (GameData_steps ver v HO) as [p HS]. pose proof (GameData_writes ver v HO) as HW.
  unfold GameData_bytes in HW. rewrite split_code in HS, HW.
  apply Steps_app_inv in HS. destruct HS as ([G1 p1] & HA & HCB). apply Steps_cons_inv in HCB. destruct HCB as ([G2 p2] & _ & _ & HB).
  pose proof (Steps_valid_records _ _ _ _ (before_plain ver v) HA) as VA. pose proof (Steps_valid_records _ _ _ _ (after_plain v) HB) as VB.
  rewrite <- (plain_list _ (before_plain ver v)), <- (plain_list _ (after_plain v)) in HW.
  rewrite layout_enc in HW; [|eapply Forall_impl; [|exact VA]; intros r Hr; apply Hr|eapply Forall_impl; [|exact VB]; intros r Hr; apply Hr].
  exists (map rec_of_tag (before_code ver v)), (code_bytes (gt_code (gd_tail v))), (map rec_of_tag (after_code v)).
  split; [exact HW|]. split; [exact VA|]. split; [exact VB|]. split; [|].
  - rewrite map_app, !map_map. change (fun x => fst (rec_of_tag x)) with rec_tag. intros Hin. apply in_app_or in Hin.
    destruct Hin as [Hin|Hin]; apply in_map_iff in Hin; destruct Hin as (r & Er & Hr);
      [pose proof (before_nc ver v) as F|pose proof (after_nc v) as F]; apply (proj1 (Forall_forall _ _) F r Hr Er).
  - unfold GameData_ok in HO. apply andb_true_iff in HO. destruct HO as [_ HO].
    assert (HK : code_ok (gt_code (gd_tail v)) = true) by (unfold GDTail_ok, GDTail_str in HO; rewrite !andb_true_iff in HO; apply HO).
    unfold code_ok in HK. apply andb_true_iff in HK. destruct HK as [HK HK2]. apply andb_true_iff in HK. destruct HK as [HK1 _].
    destruct (swe_value_roundtrip _ HK1) as (d & E1 & E2).
    unfold code_bytes in *. rewrite E1 in *. split; [|symmetry; exact E2]. apply size_fits_iff. exact HK2.
Qed.
Lemma game_data_hashed ver v : storable v -> exists before script after,
  GameData_write ver v = Ok (game_data_layout before script after) /\ Forall valid_record before /\ Forall valid_record after /\
  ~ In "CODE"%string (map fst (before ++ after)) /\ data_fits script /\ gt_code (gd_tail v) = swe_of_bytes script.
Proof. intros H. apply game_data_hashed_ok, storable_ok, H. Qed.
Lemma collection_valid v : wide_fits (co_name v) -> Forall wide_fits (co_items v) ->
  Forall valid_record (collection_records v) /\ ~ In "CODE"%string (map fst (collection_records v)).
Proof.
  intros H1 H2. split.
  - assert (W : forall t s, valid_tag t -> t <> "ENDB"%string -> wide_fits s -> valid_record (t, wide_payload s)).
    { intros t s Ht He [_ Hs]. split; [exact Ht|]. split; [exact He|]. cbn [snd]. unfold wide_payload. rewrite zlen_app. unfold size_fits in Hs.
      change (zlen (le32 (zlen (encode_utf16le s)))) with 4. change (2 ^ 32) with 4294967296 in *. lia. }
    unfold collection_records. apply Forall_app. split; [|apply Forall_app; split].
    + constructor; [|constructor]. apply W; [split; [cbn; lia|cbn; intuition discriminate]|discriminate|exact H1].
    + apply Forall_forall. intros x Hx. apply in_map_iff in Hx. destruct Hx as (y & <- & Hy). apply W; [split; [cbn; lia|cbn; intuition discriminate]|discriminate|].
      apply (proj1 (Forall_forall _ _) H2 y Hy).
    + repeat constructor; cbn [fst snd]; try lia; try (cbn; intuition discriminate); discriminate.
  - unfold collection_records. rewrite !map_app, map_map. cbn [map fst]. intros Hin. apply in_app_or in Hin. destruct Hin as [[Hin|[]]|Hin]; [discriminate|].
    apply in_app_or in Hin. destruct Hin as [Hin|Hin].
    + apply in_map_iff in Hin. destruct Hin as (x & E & _). discriminate.
    + cbn in Hin. intuition discriminate.
Qed.

Section T.
Variable up : N -> N.
Local Notation keys := (keys up).
Local Notation fpath := (fpath up).
Local Notation cf_node := (cf_node up).

(** ** The streams of a written table *)
Lemma numbered_eq prefix ds : forall i, numbered_part prefix i ds = numbered prefix i ds.
Proof. induction ds as [|d ds IH]; intros i; [reflexivity|]. cbn [numbered_part numbered]. rewrite IH. reflexivity. Qed.
Lemma table_file_eq p m : table_file (pt_tags p) (pt_info p) (pt_version p) (pt_gamedata p) (pt_items p) (pt_images p) (pt_sounds p)
  (pt_fonts p) (pt_collections p) m = full_file up p m.
Proof.
  rewrite full_file_eq. unfold table_file, file_of, file_parts, info_part, info_file, game_stream. cbv zeta. cbn [flat_map snd app].
  rewrite app_nil_r. do 2 (rewrite <- !app_assoc; cbn [app]). reflexivity.
Qed.
Lemma in_full p m n part : In (n, part) (mac_part up p m) -> forall e, In e part -> In e (full_file up p m).
Proof. intros H e He. unfold full_file. apply in_flat_map. exists (n, part). split; [exact H|exact He]. Qed.
Lemma storage_in p m q : In (q, Storage) (full_file up p m) -> q = [GameStg] \/ q = [TableInfoStg].
Proof.
  assert (NS : forall prefix ds i, ~ In (q, Storage) (numbered_part prefix i ds)).
  { intros prefix. induction ds as [|d ds IH]; intros i Hin; [destruct Hin|]. destruct Hin as [Hin|Hin]; [discriminate|apply (IH _ Hin)]. }
  intros H. unfold full_file in H. apply in_flat_map in H. destruct H as (e & He & Hin). unfold mac_part, file_parts in He. cbv zeta in He. cbn [app In] in He.
  repeat (destruct He as [<-|He]; [cbn [fst snd] in Hin; try (destruct (NS _ _ _ Hin)); try (destruct Hin as [Hin|[]]; try discriminate)|]); [..|destruct He].
  - injection Hin as <-. left. reflexivity.
  - destruct Hin as [Hin|Hin]; [injection Hin as <-; right; reflexivity|]. unfold info_file in Hin. apply in_map_iff in Hin. destruct Hin as (x & E & _). discriminate.
Qed.
Lemma no_info_storage p m n : cf_node [TableInfoStg; n] (full_file up p m) <> Some Storage.
Proof.
  rewrite cf_node_find by discriminate. intros E. apply cf_find_some in E. destruct E as (q & Hq & E).
  destruct (storage_in _ _ _ Hq) as [->| ->]; discriminate E.
Qed.
Lemma no_next_collection p m : cf_node (stream_path "Collection" (N.of_nat (List.length (pt_collections p)))) (full_file up p m) = None.
Proof.
  apply cf_node_none; [discriminate|]. intros Hin. unfold full_file in Hin. rewrite flat_keys in Hin. apply in_flat_map in Hin.
  destruct Hin as (e & He & Hin). apply in_map_iff in He. destruct He as (q & <- & Hq). cbn [snd] in Hin.
  assert (C : key_class up (fpath (stream_path "Collection" (N.of_nat (List.length (pt_collections p))))) = [fold_name up GameStg; fold_name up (lit "Collection")]).
  { apply (class_numbered up "Collection" [[]] (N.of_nat (List.length (pt_collections p)))); [reflexivity|]. left. reflexivity. }
  unfold mac_part, file_parts in Hq. cbv zeta in Hq. cbn [app In] in Hq.
  repeat (destruct Hq as [<-|Hq]; [cbn [snd] in Hin|]); [..|destruct Hq];
    try (apply class_numbered in Hin; [|reflexivity]; rewrite C in Hin; discriminate);
    try (apply class_one in Hin; [|reflexivity]; rewrite C in Hin; discriminate).
  - destruct Hin as [Hin|[]]. rewrite <- Hin in C. discriminate.
  - apply class_info in Hin. rewrite C in Hin. discriminate.
  - apply keys_numbered in Hin. destruct Hin as (j & Hj & E). rewrite !fpath_stream in E. injection E as E. apply dec_text_inj in E. lia.
Qed.
Lemma collections_full p m : forall rss i, info_fits up (pt_info p) ->
  (forall e, In e (numbered_part "Collection" i (map stream_bytes rss)) -> In e (full_file up p m)) ->
  cf_node (stream_path "Collection" (i + N.of_nat (List.length rss))) (full_file up p m) = None ->
  collections_are up (full_file up p m) i rss.
Proof.
  induction rss as [|rs rss IH]; intros i HI Hin HN; cbn [collections_are].
  - cbn [List.length] in HN. rewrite N.add_0_r in HN. exact HN.
  - cbn [map numbered_part] in Hin. split.
    + apply cf_node_in; [discriminate|apply full_nodup, HI|]. apply Hin. left. reflexivity.
    + apply IH; [exact HI|intros e He; apply Hin; right; exact He|]. cbn [List.length] in HN.
      replace (i + 1 + N.of_nat (List.length rss))%N with (i + N.of_nat (S (List.length rss)))%N by lia. exact HN.
Qed.
Lemma full_hashable p m tags rss : info_fits up (pt_info p) -> pt_tags p = stream_bytes (tag_records tags) ->
  Forall (fun s => string_fits s /\ plain_component s) tags -> pt_collections p = map stream_bytes rss ->
  Forall (fun rs => Forall valid_record rs /\ ~ In "CODE"%string (map fst rs)) rss ->
  hashable up (full_file up p m) (Some tags) rss.
Proof.
  intros HI ET HT EC HC. pose proof (full_nodup up p m HI) as HN.
  split; [|split; [|split; [|split; [|split]]]].
  - rewrite (cf_node_in up [GameStg; lit "Version"] (Stream (pt_version p))); [discriminate|discriminate|exact HN|].
    eapply in_full; [do 3 right; left; reflexivity|left; reflexivity].
  - intros n. apply no_info_storage.
  - cbn [option_map]. rewrite <- ET. apply cf_node_in; [discriminate|exact HN|]. eapply in_full; [do 1 right; left; reflexivity|left; reflexivity].
  - exact HT.
  - apply collections_full; [exact HI| |].
    + intros e He. eapply in_full; [do 9 right; left; reflexivity|]. rewrite EC. exact He.
    + pose proof (no_next_collection p m) as E. rewrite EC, map_length in E. exact E.
  - exact HC.
Qed.

(** ** Writing and reading *)
Lemma Forall2_build {A B} (P : A -> B -> Prop) l : Forall (fun x => exists d, P x d) l -> exists ds, Forall2 P l ds.
Proof. induction 1 as [|x l [d Hd] _ [ds IH]]; [exists []; constructor|]. exists (d :: ds). constructor; assumption. Qed.
Lemma Forall2_map_l {A B C} (g : A -> C) (P : C -> B -> Prop) l ds : Forall2 (fun x d => P (g x) d) l ds -> Forall2 P (map g l) ds.
Proof. induction 1; cbn [map]; constructor; assumption. Qed.
Lemma Forall2_split {A B} (P Q : A -> B -> Prop) l ds : Forall2 (fun x d => P x d /\ Q x d) l ds -> Forall2 P l ds /\ Forall2 Q l ds.
Proof. induction 1 as [|x d l ds [H1 H2] _ [I1 I2]]; split; constructor; assumption. Qed.
Lemma Forall2_impl {A B} (P Q : A -> B -> Prop) l ds : (forall x d, P x d -> Q x d) -> Forall2 P l ds -> Forall2 Q l ds.
Proof. intros H. induction 1; constructor; auto. Qed.
Lemma Forall2_len {A B} (P : A -> B -> Prop) l ds : Forall2 P l ds -> List.length l = List.length ds.
Proof. induction 1; cbn [List.length]; congruence. Qed.
Lemma small_list {A B} (P : A -> B -> Prop) l ds n : Forall2 P l ds -> w32_to_Z n = zlen l -> small ds.
Proof. intros H E. pose proof (w32_to_Z_range n) as HR. apply Forall2_len in H. unfold small, zlen in *. rewrite H in E. unfold two32 in HR. lia. Qed.
Lemma u32_nat_len {A} n (l : list A) : w32_to_Z n = zlen l -> u32_nat n = List.length l.
Proof. intros E. unfold u32_nat. rewrite E. unfold zlen. lia. Qed.

Definition Decodes (v' : VPX) (p : parts) : Prop :=
  forall c, CustomInfoTags_read c (pt_tags p) = Ok (vpx_custominfotags v') /\ pt_version p = w32_bytes (vpx_version v') /\
  GameData_read (w32_to_Z (vpx_version v')) c (pt_gamedata p) = Ok (vpx_gamedata v') /\
  Forall2 (fun x d => gameitem_read c d = Ok x) (vpx_gameitems v') (pt_items p) /\
  Forall2 (fun x d => ImageData_read c d = Ok x) (vpx_images v') (pt_images p) /\
  Forall2 (fun x d => Sound_read c (w32_to_Z (vpx_version v')) d = Ok x) (vpx_sounds v') (pt_sounds p) /\
  Forall2 (fun x d => FontData_read c d = Ok x) (vpx_fonts v') (pt_fonts p) /\
  Forall2 (fun x d => Collection_read c d = Ok x) (vpx_collections v') (pt_collections p).
Lemma read_full order p m v' c : (forall l, Permutation l (order l)) -> info_fits up (pt_info p) -> Decodes v' p -> counts_agree v' ->
  exists info, read_vpx up order c (full_file up p m) = Ok (with_info info v') /\ same_info info (pt_info p).
Proof.
  intros HO HI HD (C1 & C2 & C3 & C4 & C5). destruct (HD c) as (D1 & D2 & D3 & D4 & D5 & D6 & D7 & D8). clear HD.
  pose proof (full_nodup up p m HI) as HN. set (f := full_file up p m) in *.
  assert (GT : cf_node [GameStg; lit "CustomInfoTags"] f = Some (Stream (pt_tags p))).
  { apply cf_node_in; [discriminate|exact HN|]. eapply in_full; [do 1 right; left; reflexivity|left; reflexivity]. }
  assert (GV : cf_node [GameStg; lit "Version"] f = Some (Stream (pt_version p))).
  { apply cf_node_in; [discriminate|exact HN|]. eapply in_full; [do 3 right; left; reflexivity|left; reflexivity]. }
  assert (GG : cf_node [GameStg; lit "GameData"] f = Some (Stream (pt_gamedata p))).
  { apply cf_node_in; [discriminate|exact HN|]. eapply in_full; [do 4 right; left; reflexivity|left; reflexivity]. }
  assert (RI : exists info, read_tableinfo up order f = Ok info /\ same_info info (pt_info p)).
  { set (g := game_stream "Version" (pt_version p) ++ game_stream "GameData" (pt_gamedata p) ++ numbered_part "GameItem" 0 (pt_items p) ++
             numbered_part "Image" 0 (pt_images p) ++ numbered_part "Sound" 0 (pt_sounds p) ++ numbered_part "Font" 0 (pt_fonts p) ++
             numbered_part "Collection" 0 (pt_collections p) ++ game_stream "MAC" m).
    set (f0 := [([GameStg], Storage)] ++ game_stream "CustomInfoTags" (pt_tags p)).
    assert (EF : f = f0 ++ info_part (pt_info p) ++ g).
    { unfold f, g, f0. rewrite full_file_eq. unfold file_of, file_parts. cbv zeta. cbn [flat_map snd]. rewrite app_nil_r, <- !app_assoc. reflexivity. }
    rewrite EF. apply (read_tableinfo_ok up order (pt_info p) f0 g); [exact HO|exact HI| |].
    - match goal with |- cf_node _ ?x = _ => replace x with f by exact EF end. apply cf_node_in; [discriminate|exact HN|]. eapply in_full; [do 2 right; left; reflexivity|left; reflexivity].
    - assert (NU : forall prefix ds i e, In e (numbered_part prefix i ds) -> fpath (removelast (fst e)) <> fpath [TableInfoStg]).
      { intros prefix. induction ds as [|d ds IH]; intros i e He; [destruct He|]. destruct He as [<-|He]; [discriminate|apply (IH _ _ He)]. }
      intros e He. unfold f0, g in He. left. rewrite !in_app_iff in He.
      repeat match type of He with _ \/ _ => destruct He as [He|He] end;
        try (apply NU in He; exact He); try (destruct He as [<-|[]]; discriminate). }
  destruct RI as (info & RI & SI). exists info. split; [|exact SI].
  unfold read_vpx, read_custominfotags, cf_is_stream, cf_get. rewrite GT. cbn [rbind]. rewrite D1. cbn [rbind]. rewrite RI. cbn [rbind].
  unfold read_version, cf_get. rewrite GV, D2. cbn [rbind]. destruct (vpx_version v') as [b0 b1 b2 b3] eqn:EV. cbn [w32_bytes w32_0 w32_1 w32_2 w32_3].
  unfold read_gamedata, cf_get. rewrite GG. cbn [rbind]. rewrite D3. cbn [rbind].
  rewrite (u32_nat_len _ _ C1), (u32_nat_len _ _ C2), (u32_nat_len _ _ C3), (u32_nat_len _ _ C4), (u32_nat_len _ _ C5).
  erewrite read_numbered_ok; [|exact D4|exact HN|intros e He; eapply in_full; [do 5 right; left; reflexivity|exact He]]. cbn [rbind].
  erewrite read_numbered_ok; [|exact D5|exact HN|intros e He; eapply in_full; [do 6 right; left; reflexivity|exact He]]. cbn [rbind].
  erewrite read_numbered_ok; [|exact D6|exact HN|intros e He; eapply in_full; [do 7 right; left; reflexivity|exact He]]. cbn [rbind].
  erewrite read_numbered_ok; [|exact D7|exact HN|intros e He; eapply in_full; [do 8 right; left; reflexivity|exact He]]. cbn [rbind].
  erewrite read_numbered_ok; [|exact D8|exact HN|intros e He; eapply in_full; [do 9 right; left; reflexivity|exact He]]. cbn [rbind].
  unfold with_info. rewrite EV. reflexivity.
Qed.

Lemma collections_all cs : Forall collection_fits cs ->
  Forall2 (fun x d => Collection_write x = Ok d /\ forall c, Collection_read c d = Ok x) cs (map stream_bytes (map collection_records cs)).
Proof.
  induction 1 as [|x l [Ha Hb] _ IH]; cbn [map]; constructor; [|exact IH].
  destruct (collection_stored x Ha Hb) as [S1 S2]. split; [exact S1|]. intros c. apply S2, Inserted_refl.
Qed.
Lemma table_parts v : table_fits up v -> exists p, Encoded v p /\ few_parts p /\ Decodes (stored_table (vpx_info v) v) p /\
  pt_tags p = stream_bytes (tag_records (vpx_custominfotags v)) /\ pt_collections p = map stream_bytes (map collection_records (vpx_collections v)).
Proof.
  intros (H1 & H2 & H3 & H4 & H5 & H6 & H7 & H8 & (C1 & C2 & C3 & C4 & C5)).
  assert (T : Forall string_fits (vpx_custominfotags v)) by (eapply Forall_impl; [|exact H1]; intros s Hs; apply Hs).
  destruct (info_tags_stored _ T) as [T1 T2].
  destruct (game_data_stored (w32_to_Z (vpx_version v)) _ H3) as (g & G1 & G2).
  destruct (Forall2_build (fun x d => gameitem_write x = Ok d /\ forall c, gameitem_read c d = Ok (GI_stored x)) (vpx_gameitems v)) as [is HI].
  { eapply Forall_impl; [|exact H4]. intros i [Hw Ho]. apply gameitem_stored_roundtrip; assumption. }
  destruct (Forall2_build (fun x d => ImageData_write x = Ok d /\ forall c, ImageData_read c d = Ok x) (vpx_images v)) as [ms HM].
  { eapply Forall_impl; [|exact H5]. intros i [Hw Ho]. apply image_roundtrip; assumption. }
  destruct (Forall2_build (fun x d => Sound_write (w32_to_Z (vpx_version v)) x = Ok d /\
      forall c, Sound_read c (w32_to_Z (vpx_version v)) d = Ok (kept_at (w32_to_Z (vpx_version v)) x)) (vpx_sounds v)) as [ss HS].
  { eapply Forall_impl; [|exact H6]. intros i Hf. destruct (sound_stored (w32_to_Z (vpx_version v)) i Hf) as [S1 S2]. eexists. split; [exact S1|].
    intros c. specialize (S2 c []). rewrite app_nil_r in S2. exact S2. }
  destruct (Forall2_build (fun x d => FontData_write x = Ok d /\ forall c, FontData_read c d = Ok x) (vpx_fonts v)) as [fs HF].
  { eapply Forall_impl; [|exact H7]. intros i (Ha & Hb & Hc). destruct (font_stored i Ha Hb Hc) as [S1 S2]. eexists. split; [exact S1|].
    intros c. apply S2, Inserted_refl. }
  assert (HC : Forall2 (fun x d => Collection_write x = Ok d /\ forall c, Collection_read c d = Ok x) (vpx_collections v)
                 (map stream_bytes (map collection_records (vpx_collections v)))).
  { apply collections_all, H8. }
  apply Forall2_split in HI. destruct HI as [HI1 HI2]. apply Forall2_split in HM. destruct HM as [HM1 HM2].
  apply Forall2_split in HS. destruct HS as [HS1 HS2]. apply Forall2_split in HF. destruct HF as [HF1 HF2]. apply Forall2_split in HC. destruct HC as [HC1 HC2].
  exists (mkParts (stream_bytes (tag_records (vpx_custominfotags v))) (vpx_info v) (w32_bytes (vpx_version v)) g is ms ss fs
            (map stream_bytes (map collection_records (vpx_collections v)))).
  split; [|split; [|split; [|split]]].
  - repeat split; cbn [pt_tags pt_info pt_version pt_gamedata pt_items pt_images pt_sounds pt_fonts pt_collections]; assumption || reflexivity.
  - repeat split; cbn [pt_items pt_images pt_sounds pt_fonts pt_collections].
    + eapply small_list; [exact HI1|exact C1].
    + eapply small_list; [exact HM1|exact C2].
    + eapply small_list; [exact HS1|exact C3].
    + eapply small_list; [exact HF1|exact C4].
    + eapply small_list; [exact HC1|exact C5].
  - intros c. cbn [pt_tags pt_info pt_version pt_gamedata pt_items pt_images pt_sounds pt_fonts pt_collections stored_table
                    vpx_custominfotags vpx_info vpx_version vpx_gamedata vpx_gameitems vpx_images vpx_sounds vpx_fonts vpx_collections].
    split; [apply T2, Inserted_refl|]. split; [reflexivity|]. split; [apply G2|].
    split; [apply Forall2_map_l; eapply Forall2_impl; [|exact HI2]; cbn; auto|].
    split; [eapply Forall2_impl; [|exact HM2]; cbn; auto|].
    split; [apply Forall2_map_l; eapply Forall2_impl; [|exact HS2]; cbn; auto|].
    split; [eapply Forall2_impl; [|exact HF2]; cbn; auto|]. eapply Forall2_impl; [|exact HC2]; cbn; auto.
  - reflexivity.
  - reflexivity.
Qed.

Lemma agree_sym f g : Agree up f g -> Agree up g f.
Proof. intros (A1 & A2 & A3). split; [|split]; intros; symmetry; auto. Qed.
Lemma file_agree p m : Agree up (file_of up p) (full_file up p m).
Proof. rewrite full_file_eq. apply agree_app; [discriminate|right; reflexivity]. Qed.
Lemma counts_stored info v : counts_agree v -> counts_agree (stored_table info v).
Proof.
  intros (C1 & C2 & C3 & C4 & C5). destruct (stored_form_differs (w32_to_Z (vpx_version v)) (vpx_gamedata v)) as (_ & _ & _ & _ & _ & _ & E & _).
  unfold counts_agree, stored_table.
  cbn [vpx_gamedata vpx_gameitems vpx_images vpx_sounds vpx_fonts vpx_collections]. rewrite E. clear E. unfold zlen in *. rewrite !map_length.
  destruct (gd_tail (vpx_gamedata v)). repeat split; assumption.
Qed.
Definition table_hash (md2 : bytes -> bytes) (f : cfile) (v : VPX) before script after : bytes :=
  md2 (hashed_file up f (Some (vpx_custominfotags v)) (hashed_game_data before script after) (map collection_records (vpx_collections v))).
Lemma table_written md2 v : table_fits up v -> exists p before script after,
  Encoded v p /\ few_parts p /\ Decodes (stored_table (vpx_info v) v) p /\ pt_gamedata p = game_data_layout before script after /\
  gt_code (gd_tail (vpx_gamedata v)) = swe_of_bytes script /\ Forall valid_record before /\ Forall valid_record after /\
  ~ In "CODE"%string (map fst (before ++ after)) /\ data_fits script /\
  (forall m, hashable up (full_file up p m) (Some (vpx_custominfotags v)) (map collection_records (vpx_collections v))) /\
  (forall m c, generate_mac up md2 c (full_file up p m) = Ok (table_hash md2 (file_of up p) v before script after)) /\
  forall c, write_vpx up md2 c v [] = Ok (full_file up p (table_hash md2 (file_of up p) v before script after)).
Proof.
  intros HF. destruct (table_parts v HF) as (p & HE & HP & HD & ET & EC). destruct HF as (H1 & H2 & H3 & _ & _ & _ & _ & H8 & _).
  destruct (game_data_hashed (w32_to_Z (vpx_version v)) _ H3) as (before & script & after & HW & HB & HA & HN & HS & HC).
  destruct HE as (E1 & E2 & E3 & E4 & E5 & E6 & E7 & E8 & E9). pose proof E4 as EG. rewrite HW in EG. injection EG as EG. symmetry in EG.
  assert (HI : info_fits up (pt_info p)) by (rewrite E2; exact H2).
  assert (HH : forall m, hashable up (full_file up p m) (Some (vpx_custominfotags v)) (map collection_records (vpx_collections v))).
  { intros m. apply full_hashable; [exact HI|exact ET|exact H1|exact EC|]. apply Forall_forall. intros rs Hrs. apply in_map_iff in Hrs.
    destruct Hrs as (c & <- & Hc). eapply Forall_forall in H8; [|exact Hc]. destruct H8 as [Ha Hb]. apply collection_valid; assumption. }
  assert (HG : forall c f, Agree up (full_file up p []) f -> cf_node [GameStg; lit "GameData"] f = Some (Stream (pt_gamedata p)) ->
    generate_mac up md2 c f = Ok (table_hash md2 (file_of up p) v before script after)).
  { intros c f AF GF. rewrite EG in GF. rewrite (mac_formula up md2 c f (Some (vpx_custominfotags v)) (map collection_records (vpx_collections v)) before script after);
      [|eapply hashable_agree; [exact AF|apply HH]|exact GF|assumption..].
    unfold table_hash. do 2 f_equal. rewrite <- (hashed_agree up _ f _ _ _ AF). symmetry. apply hashed_agree, file_agree. }
  exists p, before, script, after. split; [repeat split; assumption|]. split; [exact HP|]. split; [exact HD|]. split; [exact EG|].
  split; [exact HC|]. split; [exact HB|]. split; [exact HA|]. split; [exact HN|]. split; [exact HS|]. split; [exact HH|].
  assert (GF : forall m, cf_node [GameStg; lit "GameData"] (full_file up p m) = Some (Stream (pt_gamedata p))).
  { intros m. apply cf_node_in; [discriminate|apply full_nodup, HI|]. eapply in_full; [do 4 right; left; reflexivity|left; reflexivity]. }
  split.
  - intros m c. apply HG; [|apply GF].
    destruct (file_agree p m) as (A1 & A2 & A3), (file_agree p []) as (B1 & B2 & B3). split; [|split]; intros; etransitivity.
    all: try (symmetry; (apply B1; eassumption) || apply B2 || apply B3). all: (apply A1; assumption) || apply A2 || apply A3.
  - intros c. rewrite (write_vpx_ok up md2 c v p); [|repeat split; assumption|exact HP|exact H2].
    rewrite HG; [reflexivity|apply agree_sym, file_agree|].
    specialize (GF []). rewrite full_file_eq in GF. rewrite cf_node_find in * by discriminate. rewrite cf_find_app in GF.
    destruct (cf_find up [GameStg; lit "GameData"] (file_of up p)); [exact GF|]. discriminate GF.
Qed.
Lemma with_info_stored i j v : with_info i (stored_table j v) = stored_table i v.
Proof. reflexivity. Qed.
Lemma survives_stored info v : table_fits up v -> table_survives v -> stored_table info v = with_info info v.
Proof.
  intros (_ & _ & H3 & _) ((S1 & S2 & S3 & S4) & SI & SS). unfold stored_table, with_info. f_equal.
  - destruct (game_data_equal _ _ H3 S1 S2 S3 S4) as (b & W & R). destruct (game_data_stored (w32_to_Z (vpx_version v)) _ H3) as (b' & W' & R').
    rewrite W in W'. injection W' as <-. specialize (R true). rewrite (R' true) in R. injection R as R. exact R.
  - rewrite <- (map_id (vpx_gameitems v)) at 2. apply map_ext_in. intros i Hi. apply GI_stored_id. eapply Forall_forall in SI; [exact SI|exact Hi].
  - rewrite <- (map_id (vpx_sounds v)) at 2. apply map_ext_in. intros i Hi. eapply Forall_forall in SS; [exact SS|exact Hi].
Qed.
End T.

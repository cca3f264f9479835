(** The properties of whole tables and table files, as they are stated in PropertiesVpx. *)
From Coq Require Import Permutation.
From Verif Require Import Base Text Biff Quantize Common Enums Structs GameItem GameData Image Sound Cfb TableInfo Vpx.
From Verif Require Import BaseFacts TextFacts BiffFacts CommonFacts RecordFacts GameDataFacts GameDataProps GameItemFacts GameItemStored.
From Verif Require SoundFacts.
From Verif Require Import SpecBiff SpecStructs SpecImage SpecSound StructsProps CfbFacts SpecVpx TableInfoFacts MacFacts VpxFacts SpecTable TableFacts EditFacts OpsFacts.

(** ** Table information *)
Lemma info_written up order t f : (forall l, Permutation l (order l)) -> info_fits up t -> distinct_paths up f -> outside up TableInfoStg f ->
  exists t', write_tableinfo up t f = Ok (f ++ ([TableInfoStg], Storage) :: map (fun e => ([TableInfoStg; fst e], Stream (snd e))) (info_entries t)) /\
    read_tableinfo up order (f ++ ([TableInfoStg], Storage) :: map (fun e => ([TableInfoStg; fst e], Stream (snd e))) (info_entries t)) = Ok t' /\
    same_info t' t.
Proof.
  intros HO HI HD HF.
  assert (EP : info_part t = ([TableInfoStg], Storage) :: map (fun e => ([TableInfoStg; fst e], Stream (snd e))) (info_entries t)) by reflexivity.
  rewrite <- EP. clear EP.
  assert (HN : NoDup (keys up (f ++ info_part t))).
  { rewrite keys_app. apply NoDup_app_disjoint; [exact HD|apply info_part_nodup, HI|].
    intros k H1 H2. unfold keys in H1, H2. apply in_map_iff in H1, H2. destruct H1 as (e & <- & He), H2 as (e' & E & He').
    pose proof (proj1 (Forall_forall _ _) HF e He) as HX. cbv beta in HX. destruct e as [[|c p] nd]; cbn [fst] in *; [contradiction|].
    assert (HT : exists q, fst e' = TableInfoStg :: q).
    { destruct He' as [<-|He']; [eexists; reflexivity|]. unfold info_file in He'. apply in_map_iff in He'. destruct He' as (x & <- & _). eexists; reflexivity. }
    destruct HT as (q & Eq). rewrite Eq in E. unfold fpath in E. cbn [map] in E. injection E as E _. apply HX. symmetry. exact E. }
  pose proof (write_tableinfo_ok up t f HI HN) as W.
  destruct (read_tableinfo_ok up order t f [] HO HI) as (t' & R & S).
  - rewrite app_nil_r. apply cf_node_in; [discriminate|exact HN|]. apply in_or_app. right. left. reflexivity.
  - intros e He. rewrite app_nil_r in He. left. pose proof (proj1 (Forall_forall _ _) HF e He) as HX. cbv beta in HX. destruct e as [[|c p] nd]; cbn [fst] in *; [contradiction|].
    destruct p as [|c' p]; [discriminate|]. change (removelast (c :: c' :: p)) with (c :: removelast (c' :: p)). unfold fpath. cbn [map].
    intros E. injection E as E _. apply HX. exact E.
  - rewrite app_nil_r in R. exists t'. auto.
Qed.

(** ** Whole tables *)
Lemma table_stored up md2 checked v : table_fits up v ->
  exists gamedata items images sounds fonts collections mac,
    write_vpx up md2 checked v [] =
      Ok (table_file (stream_bytes (tag_records (vpx_custominfotags v))) (vpx_info v) (le32 (w32_to_Z (vpx_version v))) gamedata items images sounds
            fonts collections mac) /\
    GameData_write (w32_to_Z (vpx_version v)) (vpx_gamedata v) = Ok gamedata /\
    Forall2 (fun x d => gameitem_write x = Ok d) (vpx_gameitems v) items /\
    Forall2 (fun x d => ImageData_write x = Ok d) (vpx_images v) images /\
    Forall2 (fun x d => Sound_write (w32_to_Z (vpx_version v)) x = Ok d) (vpx_sounds v) sounds /\
    Forall2 (fun x d => FontData_write x = Ok d) (vpx_fonts v) fonts /\
    Forall2 (fun x d => Collection_write x = Ok d) (vpx_collections v) collections.
Proof.
  intros H. destruct (table_parts up v H) as (p0 & _ & _ & _ & ET0 & _).
  destruct (table_written up md2 v H) as (p & before & script & after & (E1 & E2 & E3 & E4 & E5 & E6 & E7 & E8 & E9) & _ & _ & _ & _ & _ & _ & _ & _ & _ & _ & W).
  exists (pt_gamedata p), (pt_items p), (pt_images p), (pt_sounds p), (pt_fonts p), (pt_collections p), (table_hash up md2 (file_of up p) v before script after).
  split; [|auto 10]. rewrite W. f_equal. rewrite <- (table_file_eq up p).
  assert (ET : pt_tags p = stream_bytes (tag_records (vpx_custominfotags v))).
  { destruct H as (H1 & _). assert (T : Forall string_fits (vpx_custominfotags v)) by (eapply Forall_impl; [|exact H1]; intros s Hs; apply Hs).
    destruct (info_tags_stored _ T) as [T1 _]. rewrite T1 in E1. injection E1 as E1. symmetry. exact E1. }
  rewrite ET, E2, E3, <- le32_w32, Z_to_w32_to_Z. reflexivity.
Qed.
Lemma table_round_trip up md2 order checked v : (forall l, Permutation l (order l)) -> table_fits up v ->
  exists f, write_vpx up md2 checked v [] = Ok f /\
    forall checked', exists info, read_vpx up order checked' f = Ok (stored_table info v) /\ same_info info (vpx_info v).
Proof.
  intros HO H. destruct (table_written up md2 v H) as (p & before & script & after & HE & _ & HD & _ & _ & _ & _ & _ & _ & _ & _ & W).
  eexists. split; [apply W|]. intros c. destruct H as (_ & HI & _ & _ & _ & _ & _ & _ & HC). destruct HE as (_ & E2 & _). rewrite <- E2 in HI.
  destruct (read_full up order p (table_hash up md2 (file_of up p) v before script after) (stored_table (vpx_info v) v) c HO HI HD (counts_stored _ _ HC)) as (info & R & S).
  exists info. rewrite R, with_info_stored. rewrite E2 in S. auto.
Qed.
Lemma table_equal up md2 order checked v : (forall l, Permutation l (order l)) -> table_fits up v -> table_survives v ->
  exists f, write_vpx up md2 checked v [] = Ok f /\
    forall checked', exists info, read_vpx up order checked' f = Ok (with_info info v) /\ same_info info (vpx_info v).
Proof.
  intros HO H HS. destruct (table_round_trip up md2 order checked v HO H) as (f & W & R). exists f. split; [exact W|]. intros c.
  destruct (R c) as (info & R' & S). exists info. rewrite R', survives_stored with (up := up) by assumption. auto.
Qed.

(** ** Message authentication codes *)
Lemma table_verifies up md2 v : table_fits up v -> exists f before script after,
  (forall checked, write_vpx up md2 checked v [] = Ok f) /\ (forall checked, verify up md2 checked f = Ok VerifyOk) /\
  GameData_write (w32_to_Z (vpx_version v)) (vpx_gamedata v) = Ok (game_data_layout before script after) /\
  gt_code (gd_tail (vpx_gamedata v)) = swe_of_bytes script /\
  cf_node up [GameStg; lit "MAC"] f =
    Some (Stream (md2 (hashed_file up f (Some (vpx_custominfotags v)) (hashed_game_data before script after) (map collection_records (vpx_collections v))))).
Proof.
  intros H. destruct (table_written up md2 v H) as (p & before & script & after & HE & _ & _ & EG & EC & _ & _ & _ & _ & _ & G & W).
  destruct HE as (_ & E2 & _ & E4 & _). destruct H as (_ & HI & _). rewrite <- E2 in HI.
  set (mac := table_hash up md2 (file_of up p) v before script after) in *. exists (full_file up p mac), before, script, after.
  assert (M : cf_node up [GameStg; lit "MAC"] (full_file up p mac) = Some (Stream mac)).
  { apply cf_node_in; [discriminate|apply full_nodup, HI|]. rewrite full_file_eq. apply in_or_app. right. left. reflexivity. }
  split; [intros c; apply W|]. split; [|split; [rewrite <- EG; exact E4|split; [exact EC|]]].
  - intros c. unfold verify, read_mac, cf_exists, cf_get. rewrite M, G, bytes_eqb_refl. reflexivity.
  - rewrite M. do 2 f_equal. unfold mac, table_hash. f_equal. apply hashed_agree, file_agree.
Qed.
Lemma flat_map_same {A} (u w : A -> bytes) l : (forall x, In x l -> u x = w x) -> flat_map u l = flat_map w l.
Proof. induction l as [|x l IH]; intros H; [reflexivity|]. cbn [flat_map]. rewrite (H x (or_introl eq_refl)), IH by (intros y Hy; apply H; right; exact Hy). reflexivity. Qed.
Lemma hashed_file_same up f g tags d cols : (forall q, In q (hashed_raw tags) -> content up q f = content up q g) ->
  hashed_file up f tags d cols = hashed_file up g tags d cols.
Proof.
  intros H. unfold hashed_file. rewrite (H [GameStg; lit "Version"] (or_introl eq_refl)). do 2 f_equal. f_equal; [|f_equal].
  - apply flat_map_same. intros n Hn. apply H. right. apply in_or_app. left. apply in_map_iff. exists n. auto.
  - destruct tags as [l|]; [|reflexivity]. unfold hashed_tags. f_equal. apply flat_map_same. intros n Hn. apply H. right. apply in_or_app. right.
    apply in_map_iff. exists n. auto.
Qed.
Lemma mac_covers up md2 c c' f g tags cols before script after : hashable up f tags cols -> hashable up g tags cols ->
  cf_node up [GameStg; lit "GameData"] f = Some (Stream (game_data_layout before script after)) ->
  cf_node up [GameStg; lit "GameData"] g = Some (Stream (game_data_layout before script after)) ->
  Forall valid_record before -> Forall valid_record after -> ~ In "CODE"%string (map fst (before ++ after)) -> data_fits script ->
  (forall q, In q (hashed_raw tags) -> content up q f = content up q g) ->
  generate_mac up md2 c f = generate_mac up md2 c' g.
Proof.
  intros Hf Hg Gf Gg VB VA NC FS HQ. rewrite (mac_formula up md2 c f tags cols before script after) by assumption.
  rewrite (mac_formula up md2 c' g tags cols before script after) by assumption. do 2 f_equal. apply hashed_file_same, HQ.
Qed.
(** A change in one stream *)
Definition seg_bytes (u : cpath -> bytes) (s : bytes + cpath) : bytes := match s with inl b => b | inr q => u q end.
Lemma segs_length (u w : cpath -> bytes) x y segs :
  (forall q, In (inr q) segs -> u q = w q \/ u q = x /\ w q = y) ->
  exists n, zlen (flat_map (seg_bytes u) segs) - zlen (flat_map (seg_bytes w) segs) = Z.of_nat n * (zlen x - zlen y) /\
    ((exists q, In (inr q) segs /\ u q = x /\ w q = y) -> (0 < n)%nat \/ zlen x = zlen y).
Proof.
  induction segs as [|s segs IH]; intros H; [exists O; cbn; split; [lia|intros (q & [] & _)]|].
  destruct IH as (n & E & HE); [intros q Hq; apply H; right; exact Hq|]. cbn [flat_map]. rewrite !zlen_app. destruct s as [b|q]; cbn [seg_bytes].
  - exists n. split; [lia|]. intros (q & [Hq|Hq] & Hx & Hy); [discriminate|]. apply HE. eauto.
  - destruct (H q (or_introl eq_refl)) as [Eq|[Ex Ey]].
    + exists n. rewrite Eq. split; [lia|]. intros (q' & [Hq|Hq] & Hx & Hy); [|apply HE; eauto]. injection Hq as <-. right. congruence.
    + exists (S n). rewrite Ex, Ey. split; [lia|]. intros _. left. lia.
Qed.
Lemma app_eq_len (a b c d : bytes) : a ++ b = c ++ d -> zlen a = zlen c -> a = c /\ b = d.
Proof.
  revert c. induction a as [|x a IH]; intros [|y c] E L; rewrite ?zlen_cons in L; try (pose proof (zlen_nonneg c)); try (pose proof (zlen_nonneg a)).
  - auto.
  - change (zlen (@nil byte)) with 0 in L. lia.
  - change (zlen (@nil byte)) with 0 in L. lia.
  - cbn [app] in E. injection E as -> E. destruct (IH c E ltac:(lia)) as [-> ->]. auto.
Qed.
Lemma segs_one (u w : cpath -> bytes) x y segs :
  (forall q, In (inr q) segs -> u q = w q \/ u q = x /\ w q = y) -> (exists q, In (inr q) segs /\ u q = x /\ w q = y) ->
  flat_map (seg_bytes u) segs = flat_map (seg_bytes w) segs -> x = y.
Proof.
  intros H HX E. assert (L : zlen x = zlen y).
  { destruct (segs_length u w x y segs H) as (n & EL & HN). rewrite E in EL. destruct (HN HX) as [Hn|Hn]; [nia|exact Hn]. }
  clear - H HX E L. induction segs as [|s segs IH]; [destruct HX as (q & [] & _)|]. cbn [flat_map] in E.
  assert (E1 : seg_bytes u s = seg_bytes w s /\ flat_map (seg_bytes u) segs = flat_map (seg_bytes w) segs).
  { apply app_eq_len; [exact E|]. destruct s as [b|q]; cbn [seg_bytes]; [reflexivity|]. destruct (H q (or_introl eq_refl)) as [->|[-> ->]]; [reflexivity|exact L]. }
  destruct E1 as [E1 E2]. destruct HX as (q & [Hq|Hq] & Hx & Hy).
  - subst s. cbn [seg_bytes] in E1. congruence.
  - apply IH; [intros q' Hq'; apply H; right; exact Hq'|eauto|exact E2].
Qed.
Definition hash_segs (tags : option (list rstring)) (d : bytes) (cols : list (list (string * bytes))) : list (bytes + cpath) :=
  inl (list_byte_of_string "Visual Pinball") :: inr [GameStg; lit "Version"] :: map (fun n => inr [TableInfoStg; lit n]) hashed_names ++
  match tags with Some l => inl (hashed_stream (tag_records l)) :: map (fun t => inr [TableInfoStg; t]) l | None => [] end ++
  [inl (d ++ flat_map hashed_stream cols)].
Lemma hash_segs_ok up f tags d cols : flat_map (seg_bytes (fun q => content up q f)) (hash_segs tags d cols) = hashed_file up f tags d cols.
Proof.
  unfold hash_segs, hashed_file. cbn [flat_map seg_bytes]. rewrite !flat_map_app. cbn [flat_map seg_bytes]. rewrite app_nil_r. do 2 f_equal.
  destruct tags as [l|]; [|reflexivity]. cbn [flat_map seg_bytes]. unfold hashed_tags. do 2 f_equal.
  assert (E : forall l : list rstring, flat_map (seg_bytes (fun q => content up q f)) (map (fun t => inr [TableInfoStg; t]) l) = flat_map (fun t => content up [TableInfoStg; t] f) l).
  { clear. induction l as [|t l IH]; [reflexivity|]. cbn [map flat_map seg_bytes]. rewrite IH. reflexivity. }
  rewrite E. reflexivity.
Qed.
Lemma change_detected up f g tags d cols p : In p (hashed_raw tags) -> content up p f <> content up p g ->
  (forall q, In q (hashed_raw tags) -> ~ same_path up q p -> content up q f = content up q g) ->
  hashed_file up f tags d cols <> hashed_file up g tags d cols.
Proof.
  intros HP HN HQ E. apply HN. rewrite <- !hash_segs_ok in E.
  assert (IN : forall q, In (inr q) (hash_segs tags d cols) <-> In q (hashed_raw tags)).
  { intros q. unfold hash_segs, hashed_raw.
    assert (M : forall A (h : A -> cpath) l, In (inr q) (map (fun x => inr (h x)) l : list (bytes + cpath)) <-> In q (map h l)).
    { intros A h l. rewrite !in_map_iff. split; intros (x & Ex & Hx); exists x; (split; [congruence|exact Hx]). }
    cbn [In]. rewrite !in_app_iff. rewrite (M _ (fun n => [TableInfoStg; lit n])). destruct tags as [l|].
    - cbn [In]. rewrite (M _ (fun t => [TableInfoStg; t])). split.
      + intros [H|[H|[H|[H|[H|[]]]]]]; try discriminate; [injection H as <-; auto|auto|destruct H; [discriminate|auto]].
      + intros [H|[H|H]]; [right; left; rewrite <- H; reflexivity|auto|auto 6].
    - cbn [In]. split.
      + intros [H|[H|[H|[[]|[H|[]]]]]]; try discriminate; [injection H as <-; auto|auto].
      + intros [H|[H|[]]]; [right; left; rewrite <- H; reflexivity|auto]. }
  apply (segs_one (fun q => content up q f) (fun q => content up q g) (content up p f) (content up p g) (hash_segs tags d cols)).
  - intros q Hq. apply IN in Hq. destruct (path_eqb up q p) eqn:EP.
    + right. apply path_eqb_iff in EP. assert (C : forall h, content up q h = content up p h).
      { intros h. unfold content. unfold cf_node. destruct q as [|a q], p as [|b p]; try discriminate; [reflexivity|]. rewrite (cf_find_fpath up _ _ h EP). reflexivity. }
      auto.
    + left. apply HQ; [exact Hq|]. intros HS. assert (path_eqb up q p = true); [|congruence]. apply path_eqb_iff. clear - HS. unfold fpath.
      induction HS as [|a b q p H1 _ IH]; [reflexivity|]. cbn [map]. f_equal; [exact H1|exact IH].
  - exists p. split; [apply IN, HP|auto].
  - exact E.
Qed.
(** What is not covered *)
Fixpoint entry_of (up : N -> N) (n : rstring) (l : list (rstring * bytes)) : option node :=
  match l with [] => None | e :: l' => if name_eqb up n (fst e) then Some (Stream (snd e)) else entry_of up n l' end.
Lemma entry_of_app up n a b : entry_of up n (a ++ b) = match entry_of up n a with Some x => Some x | None => entry_of up n b end.
Proof. induction a as [|e a IH]; [reflexivity|]. cbn [app entry_of]. destruct (name_eqb up n (fst e)); [reflexivity|exact IH]. Qed.
Lemma find_entry up n l : cf_find up [TableInfoStg; n] (info_file l) = entry_of up n l.
Proof.
  induction l as [|[k d] l IH]; [reflexivity|]. unfold info_file in *. cbn [map cf_find entry_of fst snd]. rewrite <- IH.
  change (path_eqb up [TableInfoStg; n] [TableInfoStg; k]) with (name_eqb up TableInfoStg TableInfoStg && (name_eqb up n k && true))%bool.
  replace (name_eqb up TableInfoStg TableInfoStg) with true by reflexivity. rewrite andb_true_r. reflexivity.
Qed.
Lemma find_numbered up n prefix ds : forall i, cf_find up [TableInfoStg; n] (numbered_part prefix i ds) = None.
Proof. induction ds as [|d ds IH]; intros i; [reflexivity|]. cbn [numbered_part cf_find]. exact (IH _). Qed.
Lemma info_lookup up p m n : cf_node up [TableInfoStg; n] (full_file up p m) = entry_of up n (info_entries (pt_info p)).
Proof.
  rewrite cf_node_find by discriminate. rewrite full_file_eq. unfold file_of, file_parts. cbv zeta. cbn [flat_map snd]. rewrite !cf_find_app, !find_numbered.
  change (info_part (pt_info p)) with ([([TableInfoStg], Storage)] ++ info_file (info_entries (pt_info p))). rewrite cf_find_app, find_entry.
  change (cf_find up [TableInfoStg; n] [([GameStg], Storage)]) with (@None node).
  change (cf_find up [TableInfoStg; n] [([TableInfoStg], Storage)]) with (@None node).
  unfold game_stream.
  assert (G : forall x d, cf_find up [TableInfoStg; n] [([GameStg; lit x], Stream d)] = None) by reflexivity.
  rewrite !G. cbn [cf_find]. destruct (entry_of up n (info_entries (pt_info p))); reflexivity.
Qed.
Definition saved_as (rev date : option rstring) (t : TableInfo) : TableInfo := set_ti_table_save_rev rev (set_ti_table_save_date date t).
Lemma entry_saved up n rev date t : ~ same_name up n (lit "TableSaveRev") -> ~ same_name up n (lit "TableSaveDate") ->
  entry_of up n (info_entries (saved_as rev date t)) = entry_of up n (info_entries t).
Proof.
  intros H1 H2.
  assert (NE : forall k, ~ same_name up n k -> name_eqb up n k = false).
  { intros k Hk. destruct (name_eqb up n k) eqn:E; [|reflexivity]. apply SoundFacts.rstring_eqb_eq in E. contradiction. }
  pose proof (NE _ H1) as N1. pose proof (NE _ H2) as N2.
  assert (F1 : forall o, entry_of up n (field_entry ("TableSaveRev"%string, o)) = None) by (intros [d|]; [cbn [field_entry snd fst entry_of]; rewrite N1|]; reflexivity).
  assert (F2 : forall o, entry_of up n (field_entry ("TableSaveDate"%string, o)) = None) by (intros [d|]; [cbn [field_entry snd fst entry_of]; rewrite N2|]; reflexivity).
  destruct t. unfold info_entries, info_fields, saved_as, set_ti_table_save_rev, set_ti_table_save_date.
  cbn [TableInfo.ti_table_name TableInfo.ti_author_name TableInfo.ti_screenshot TableInfo.ti_table_blurb TableInfo.ti_table_rules TableInfo.ti_author_email TableInfo.ti_release_date TableInfo.ti_table_save_rev TableInfo.ti_table_version
    TableInfo.ti_author_website TableInfo.ti_table_save_date TableInfo.ti_table_description TableInfo.ti_properties].
  rewrite !entry_of_app. cbn [flat_map]. rewrite !entry_of_app, !F1, !F2. reflexivity.
Qed.
Lemma uncovered_parts up md2 checked v w rev date : table_fits up v -> table_fits up w ->
  vpx_custominfotags w = vpx_custominfotags v -> vpx_info w = saved_as rev date (vpx_info v) -> vpx_version w = vpx_version v ->
  vpx_gamedata w = vpx_gamedata v -> vpx_collections w = vpx_collections v ->
  Forall (fun s => ~ same_name up s (lit "TableSaveRev") /\ ~ same_name up s (lit "TableSaveDate")) (vpx_custominfotags v) ->
  exists f g, write_vpx up md2 checked v [] = Ok f /\ write_vpx up md2 checked w [] = Ok g /\
    cf_node up [GameStg; lit "MAC"] g = cf_node up [GameStg; lit "MAC"] f.
Proof.
  intros Hv Hw ET EI EV EG EC HT.
  destruct (table_written up md2 v Hv) as (p & b & s & a & HEv & _ & _ & Gv & _ & VB & VA & NC & FS & Hhv & Mv & Wv).
  destruct (table_written up md2 w Hw) as (p' & b' & s' & a' & HEw & _ & _ & Gw & _ & _ & _ & _ & _ & Hhw & Mw & Ww).
  destruct HEv as (_ & Iv & Vv & GDv & _). destruct HEw as (_ & Iw & Vw & GDw & _).
  pose proof Hv as (_ & HIv & _). pose proof Hw as (_ & HIw & _). rewrite <- Iv in HIv. rewrite <- Iw in HIw.
  assert (EGD : pt_gamedata p' = pt_gamedata p) by (rewrite EG, EV, GDv in GDw; injection GDw as GDw; symmetry; exact GDw).
  eexists _, _. split; [apply Wv|]. split; [apply Ww|].
  assert (MM : forall q m, info_fits up (pt_info q) -> cf_node up [GameStg; lit "MAC"] (full_file up q m) = Some (Stream m)).
  { intros q m HI. apply cf_node_in; [discriminate|apply full_nodup, HI|]. rewrite full_file_eq. apply in_or_app. right. left. reflexivity. }
  rewrite !MM by assumption. do 2 f_equal.
  assert (E : Ok (table_hash up md2 (file_of up p') w b' s' a') = Ok (table_hash up md2 (file_of up p) v b s a)); [|injection E as E; exact E].
  rewrite <- (Mv [] true), <- (Mw [] true).
  apply mac_covers with (tags := Some (vpx_custominfotags v)) (cols := map collection_records (vpx_collections v)) (before := b) (script := s) (after := a); auto.
  - rewrite <- ET, <- EC. apply Hhw.
  - rewrite <- Gv, <- EGD. apply cf_node_in; [discriminate|apply full_nodup, HIw|]. eapply in_full; [do 4 right; left; reflexivity|left; reflexivity].
  - rewrite <- Gv. apply cf_node_in; [discriminate|apply full_nodup, HIv|]. eapply in_full; [do 4 right; left; reflexivity|left; reflexivity].
  - intros q Hq. unfold content. destruct Hq as [<-|Hq].
    + assert (VN : forall q, info_fits up (pt_info q) -> cf_node up [GameStg; lit "Version"] (full_file up q []) = Some (Stream (pt_version q))).
      { intros q HI. apply cf_node_in; [discriminate|apply full_nodup, HI|]. eapply in_full; [do 3 right; left; reflexivity|left; reflexivity]. }
      rewrite !VN by assumption.
      rewrite Vv, Vw, EV. reflexivity.
    + apply in_app_or in Hq. destruct Hq as [Hq|Hq]; apply in_map_iff in Hq; destruct Hq as (n & <- & Hn); rewrite !info_lookup, Iv, Iw, EI, entry_saved; try reflexivity.
      1,2: cbn [hashed_names In] in Hn; intros E; repeat (destruct Hn as [<-|Hn]; [discriminate E|]); contradiction.
      all: apply (proj1 (Forall_forall _ _) HT n Hn).
Qed.
(** ** Lock histories *)
Lemma odd_next n : Z.odd ((n + 1) mod 2 ^ 32) = negb (Z.odd n).
Proof.
  rewrite Z.mod_eq by lia. rewrite Z.odd_sub, Z.odd_mul. change (Z.odd (2 ^ 32)) with false. cbn [andb]. rewrite xorb_false_r.
  rewrite Z.odd_add. destruct (Z.odd n); reflexivity.
Qed.
Definition is_lock (o : lock_op) : bool := match o with OpLock => true | OpUnlock => false end.
Lemma lock_history_app os os' n :
  lock_history (os ++ os') n = (fst (lock_history os n) ++ fst (lock_history os' (snd (lock_history os n))), snd (lock_history os' (snd (lock_history os n)))).
Proof.
  revert n. induction os as [|o os IH]; intros n; [cbn; destruct (lock_history os' n); reflexivity|]. cbn [app lock_history].
  destruct (lock_step o n) as [b c]. rewrite IH. destruct (lock_history os c) as [bs c']. cbn [fst snd app]. reflexivity.
Qed.
Lemma lock_last os o n : Z.odd (snd (lock_history (os ++ [o]) n)) = is_lock o.
Proof.
  rewrite lock_history_app. cbn [snd lock_history]. generalize (snd (lock_history os n)). clear n. intros n. unfold lock_step.
  destruct o; destruct (Z.odd n) eqn:E; cbn [negb snd is_lock]; rewrite ?odd_next, ?E; reflexivity.
Qed.
Lemma last_call up md2 c f ver tags cols d g os o : editable up f ver tags cols d -> size_fits (zlen d) -> GameData_read (w32_to_Z ver) c d = Ok g ->
  counters_agree g -> blocks_fit g ->
  exists changes f', run_locks up md2 c (os ++ [o]) f = Ok (changes, f') /\ file_is_locked up c f' = Ok (is_lock o).
Proof.
  intros HE HS HR HC HB. destruct (locks_any up md2 c f ver tags cols d g (os ++ [o]) HE HS HR HC HB) as (f' & g' & E & L & _).
  rewrite lock_last in L. eauto.
Qed.
Lemma lock_idle up md2 c f : (file_is_locked up c f = Ok true -> file_lock up md2 c f = Ok (false, f)) /\
  (file_is_locked up c f = Ok false -> file_unlock up md2 c f = Ok (false, f)).
Proof.
  unfold file_is_locked, file_lock, file_unlock. destruct (file_read_gamedata up c f) as [g|e]; cbn [rbind]; [|split; discriminate].
  split; intros [= E]; rewrite E; reflexivity.
Qed.
Lemma written_editable up md2 v : table_fits up v -> exists f d, (forall c, write_vpx up md2 c v [] = Ok f) /\
  GameData_write (w32_to_Z (vpx_version v)) (vpx_gamedata v) = Ok d /\
  editable up f (vpx_version v) (Some (vpx_custominfotags v)) (map collection_records (vpx_collections v)) d.
Proof.
  intros H. destruct (table_written up md2 v H) as (p & before & script & after & HE & _ & _ & EG & EC & _ & _ & _ & _ & HH & G & W).
  destruct HE as (_ & E2 & E3 & E4 & _). destruct H as (_ & HI & _). rewrite <- E2 in HI.
  eexists _, _. split; [apply W|]. split; [exact E4|].
  assert (N : forall q n m, q <> [] -> In (q, n) (full_file up p m) -> cf_node up q (full_file up p m) = Some n).
  { intros q n m Hq Hin. apply cf_node_in; [exact Hq|apply full_nodup, HI|exact Hin]. }
  split; [|split; [|split; [|split; [|apply HH]]]].
  - apply N; [discriminate|]. eapply in_full; [left; reflexivity|left; reflexivity].
  - rewrite <- E3. apply N; [discriminate|]. eapply in_full; [do 3 right; left; reflexivity|left; reflexivity].
  - apply N; [discriminate|]. eapply in_full; [do 4 right; left; reflexivity|left; reflexivity].
  - rewrite (N _ (Stream (table_hash up md2 (file_of up p) v before script after))); [discriminate|discriminate|]. rewrite full_file_eq. apply in_or_app. right. left. reflexivity.
Qed.
(** ** The version stream *)
Lemma version_stored up v f : cf_node up [GameStg] f = Some Storage -> cf_node up [GameStg; lit "Version"] f <> Some Storage ->
  exists f', write_version up v f = Ok f' /\ read_version up f' = Ok v /\
    forall q, ~ same_path up q [GameStg; lit "Version"] -> cf_node up q f' = cf_node up q f.
Proof.
  intros HS HV. unfold write_version. rewrite store_put by (discriminate || assumption || reflexivity). eexists. split; [reflexivity|].
  split.
  - unfold read_version, cf_get. rewrite node_put by discriminate. rewrite path_eqb_refl. destruct v. reflexivity.
  - intros q Hq. destruct q as [|c q]; [reflexivity|]. rewrite node_put by discriminate. rewrite path_eqb_false; [reflexivity|].
    intros E. apply Hq. apply same_path_eqb, path_eqb_iff, E.
Qed.

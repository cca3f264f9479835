(** Proofs about editing tables in memory and about file versions. *)
From Verif Require Import Base Text Biff Quantize Common Enums Structs GameItem GameData Image Sound Cfb TableInfo Vpx.
From Verif Require Import BaseFacts TextFacts BiffFacts CommonFacts RecordFacts GameDataFacts GameDataProps GameItemFacts GameItemStored.
From Verif Require Import SpecBiff SpecStructs SpecImage SpecSound StructsProps CfbFacts SpecVpx MacFacts VpxFacts SpecTable TableFacts EditFacts.
From Verif Require Import ImageFacts ImageProps SoundFacts.

(** ** Counters and storable game data *)
Lemma storable_items n g : storable g -> storable (set_gd_tail (set_gt_gameitems_size n (gd_tail g)) g).
Proof. destruct g as [a b c d e t f h], t. intros H. exact H. Qed.
Lemma storable_images n g : storable g -> storable (set_gd_tail (set_gt_images_size n (gd_tail g)) g).
Proof. destruct g as [a b c d e t f h], t. intros H. exact H. Qed.
Lemma script_new s : Forall scalar_value s -> ~ In 0%N s -> size_fits (zlen (utf8_encode s)) -> script_fits (swe_new s).
Proof.
  intros S1 S2 S3. exists (utf8_encode s). split; [|split; [exact S3|]].
  - intros H. unfold utf8_encode in H. apply in_flat_map in H. destruct H as (ch & Hc & H).
    assert (ch = 0%N); [|subst; contradiction]. assert (V : is_scalar ch = true).
    { apply is_rstring_scalars in S1. unfold is_rstring in S1. rewrite forallb_forall in S1. apply S1, Hc. }
    revert H V. apply utf8_char_nul.
  - symmetry. apply swe_string_of; [exact S1|reflexivity].
Qed.
Lemma storable_code s g : storable g -> script_fits (swe_new s) -> storable (GameData_set_code s g).
Proof.
  destruct g as [a b c d e t f h], t. intros (H1 & H2 & H3 & H4) HS. split; [exact H1|]. split; [exact H2|]. split; [|exact H4].
  unfold strings_fit in *. cbn [GameData_set_code gd_physics gd_scene gd_tail set_gd_tail set_gt_code GameData.gt_materials_old GameData.gt_materials_physics_old
    GameData.gt_materials GameData.gt_render_probes GameData.gt_name GameData.gt_protection_data GameData.gt_code] in *.
  intuition assumption.
Qed.

(** ** Images *)
Lemma same_name_eqb x i : eq_ignore_ascii_case (im_name x) (im_name i) = true <-> same_image_name x i.
Proof. unfold eq_ignore_ascii_case, same_image_name. apply rstring_eqb_eq. Qed.
Lemma replace_some i l old l' : replace_first_image i l = Some (old, l') -> exists before after,
  l = before ++ old :: after /\ l' = before ++ i :: after /\ same_image_name old i /\ Forall (fun x => ~ same_image_name x i) before.
Proof.
  revert l'. induction l as [|x l IH]; intros l' H; [discriminate|]. cbn [replace_first_image] in H.
  destruct (eq_ignore_ascii_case (im_name x) (im_name i)) eqn:E.
  - injection H as <- <-. exists [], l. repeat split; [apply same_name_eqb, E|constructor].
  - destruct (replace_first_image i l) as [[o l'']|]; [|discriminate]. injection H as <- <-. destruct (IH l'' eq_refl) as (b & a & -> & -> & H1 & H2).
    exists (x :: b), a. repeat split; [exact H1|]. constructor; [|exact H2]. rewrite <- same_name_eqb, E. discriminate.
Qed.
Lemma replace_none i l : replace_first_image i l = None -> Forall (fun x => ~ same_image_name x i) l.
Proof.
  induction l as [|x l IH]; intros H; [constructor|]. cbn [replace_first_image] in H.
  destruct (eq_ignore_ascii_case (im_name x) (im_name i)) eqn:E; [discriminate|].
  destruct (replace_first_image i l) as [[o l'']|]; [discriminate|]. constructor; [rewrite <- same_name_eqb, E; discriminate|apply IH; reflexivity].
Qed.
Lemma image_edit checked i v : zlen (vpx_images v) < 2 ^ 32 - 1 -> w32_to_Z (gt_images_size (gd_tail (vpx_gamedata v))) = zlen (vpx_images v) ->
  exists v' r, add_or_replace_image checked i v = Ok (v', r) /\
  match r with
  | Some old => exists before after, vpx_images v = before ++ old :: after /\ v' = with_images (before ++ i :: after) v /\
                  same_image_name old i /\ Forall (fun x => ~ same_image_name x i) before
  | None => Forall (fun x => ~ same_image_name x i) (vpx_images v) /\
            v' = with_images (vpx_images v ++ [i])
                   (with_game_data (set_gd_tail (set_gt_images_size (Z_to_w32 (zlen (vpx_images v) + 1)) (gd_tail (vpx_gamedata v))) (vpx_gamedata v)) v)
  end.
Proof.
  intros HL HC. unfold add_or_replace_image. destruct (replace_first_image i (vpx_images v)) as [[old l']|] eqn:E.
  - destruct (replace_some _ _ _ _ E) as (b & a & E1 & -> & H1 & H2). eexists. exists (Some old). split; [reflexivity|]. exists b, a. auto.
  - rewrite HC. unfold u32_arith. pose proof (zlen_nonneg (vpx_images v)). change (2 ^ 32) with 4294967296 in HL. unfold two32.
    replace (4294967296 <=? zlen (vpx_images v) + 1) with false by lia. rewrite andb_false_r, Z.mod_small by lia.
    eexists. exists None. cbn [rbind]. split; [reflexivity|]. split; [apply replace_none, E|reflexivity].
Qed.
Lemma differ_replace before old i after : same_image_name old i ->
  NoDup (map (fun x => ascii_lower_case (im_name x)) (before ++ old :: after)) -> NoDup (map (fun x => ascii_lower_case (im_name x)) (before ++ i :: after)).
Proof. intros E. rewrite !map_app. cbn [map]. unfold same_image_name in E. rewrite E. auto. Qed.
Lemma differ_add i l : Forall (fun x => ~ same_image_name x i) l -> NoDup (map (fun x => ascii_lower_case (im_name x)) l) ->
  NoDup (map (fun x => ascii_lower_case (im_name x)) (l ++ [i])).
Proof.
  intros HF HN. rewrite map_app. cbn [map]. apply NoDup_app_disjoint; [exact HN|repeat constructor; intros []|]. intros y Hin [<-|[]]. apply in_map_iff in Hin.
  destruct Hin as (x & E & Hx). apply (proj1 (Forall_forall _ _) HF x Hx E).
Qed.

(** ** Histories of edits *)
Lemma edit_step up checked e v n : edit_fits e -> table_fits up v -> image_names_differ v -> room (n + 1) v -> 0 <= n ->
  exists v', run_edit checked e v = Ok v' /\ table_fits up v' /\ image_names_differ v' /\ room n v'.
Proof.
  intros HE (H1 & H2 & H3 & H4 & H5 & H6 & H7 & H8 & (C1 & C2 & C3 & C4 & C5)) HN [R1 R2] Hn.
  change (2 ^ 32) with 4294967296 in *. destruct e as [i|i|s]; cbn [edit_fits run_edit] in *.
  - exists (add_game_item i v). split; [reflexivity|]. split; [|split; [exact HN|]].
    + split; [exact H1|]. split; [exact H2|]. split; [apply storable_items, H3|]. split; [apply Forall_app; split; [exact H4|repeat constructor; apply HE]|].
      split; [exact H5|]. split; [exact H6|]. split; [exact H7|]. split; [exact H8|].
      unfold counts_agree, add_game_item. cbn [vpx_gamedata vpx_gameitems vpx_images vpx_sounds vpx_fonts vpx_collections].
      destruct (vpx_gamedata v) as [ga gb gc gd ge gt gf gh], gt. cbn in *. repeat split; try assumption.
      rewrite w32_to_Z_small; [reflexivity|]. rewrite zlen_app. change (zlen [i]) with 1. pose proof (zlen_nonneg (vpx_gameitems v)). lia.
    + unfold room, add_game_item. cbn [vpx_gameitems vpx_images]. rewrite zlen_app. change (zlen [i]) with 1. change (2 ^ 32) with 4294967296. lia.
  - assert (HL : zlen (vpx_images v) < 2 ^ 32 - 1) by (change (2 ^ 32) with 4294967296; lia).
    destruct (image_edit checked i v HL C2) as (v' & r & E & Hr). rewrite E. cbn [rbind fst]. exists v'. split; [reflexivity|].
    destruct r as [old|].
    + destruct Hr as (b & a & EI & -> & SN & _). split; [|split].
      * split; [exact H1|]. split; [exact H2|]. split; [exact H3|]. split; [exact H4|]. split.
        { cbn [with_images vpx_images]. rewrite EI in H5. apply Forall_app in H5. destruct H5 as [Ha Hb]. inversion Hb; subst.
          apply Forall_app. split; [exact Ha|]. constructor; assumption. }
        split; [exact H6|]. split; [exact H7|]. split; [exact H8|].
        unfold counts_agree. cbn [with_images vpx_gamedata vpx_gameitems vpx_images vpx_sounds vpx_fonts vpx_collections]. repeat split; try assumption.
        rewrite C2, EI. rewrite !zlen_app, !zlen_cons. reflexivity.
      * unfold image_names_differ in *. cbn [with_images vpx_images]. rewrite EI in HN. apply (differ_replace b old i a SN HN).
      * unfold room. cbn [with_images vpx_gameitems vpx_images]. rewrite EI in R2. rewrite !zlen_app, !zlen_cons in *.
        change (2 ^ 32) with 4294967296. lia.
    + destruct Hr as (HF & ->). split; [|split].
      * split; [exact H1|]. split; [exact H2|]. split; [apply storable_images, H3|]. split; [exact H4|].
        split; [apply Forall_app; split; [exact H5|constructor; [exact HE|constructor]]|].
        split; [exact H6|]. split; [exact H7|]. split; [exact H8|].
        unfold counts_agree. cbn [with_images with_game_data vpx_gamedata vpx_gameitems vpx_images vpx_sounds vpx_fonts vpx_collections].
        destruct (vpx_gamedata v) as [ga gb gc gd ge gt gf gh], gt. cbn in *. repeat split; try assumption.
        rewrite w32_to_Z_small; [rewrite zlen_app; reflexivity|]. pose proof (zlen_nonneg (vpx_images v)). lia.
      * unfold image_names_differ in *. cbn [with_images with_game_data vpx_images]. apply differ_add; assumption.
      * unfold room. cbn [with_images with_game_data vpx_gameitems vpx_images]. rewrite zlen_app. change (zlen [i]) with 1. change (2 ^ 32) with 4294967296. lia.
  - exists (set_script s v). split; [reflexivity|]. split; [|split; [exact HN|]].
    + split; [exact H1|]. split; [exact H2|]. split; [apply storable_code; [exact H3|destruct HE as (E1 & E2 & E3); apply script_new; assumption]|].
      split; [exact H4|]. split; [exact H5|]. split; [exact H6|]. split; [exact H7|]. split; [exact H8|].
      unfold counts_agree, set_script. cbn [vpx_gamedata vpx_gameitems vpx_images vpx_sounds vpx_fonts vpx_collections].
      destruct (vpx_gamedata v) as [ga gb gc gd ge gt gf gh], gt. cbn in *. repeat split; assumption.
    + unfold room, set_script. cbn [vpx_gameitems vpx_images]. change (2 ^ 32) with 4294967296. lia.
Qed.
Lemma edit_history up checked es : forall v, Forall edit_fits es -> table_fits up v -> image_names_differ v -> room (zlen es) v ->
  exists v', run_edits checked es v = Ok v' /\ table_fits up v' /\ image_names_differ v'.
Proof.
  induction es as [|e es IH]; intros v HE HT HN HR; [exists v; auto|]. inversion HE as [|e' es' E1 E2]; subst.
  rewrite zlen_cons in HR. replace (1 + zlen es) with (zlen es + 1) in HR by lia.
  destruct (edit_step up checked e v (zlen es) E1 HT HN HR (zlen_nonneg _)) as (v1 & W & HT1 & HN1 & HR1).
  cbn [run_edits]. rewrite W. cbn [rbind]. apply IH; assumption.
Qed.

(** ** Versions *)
Lemma parse_digits_ok s : forall acc, 0 <= acc < two32 -> Forall (fun c => (48 <= c <= 57)%N) s ->
  let n := fold_left (fun n c => n * 10 + (Z.of_N c - 48)) s acc in parse_digits acc s = if n <? two32 then Ok n else Err.
Proof.
  induction s as [|c s IH]; intros acc Ha HF; cbn [fold_left parse_digits].
  - replace (acc <? two32) with true by lia. reflexivity.
  - inversion HF as [|c' s' Hc Hs]; subst. replace ((48 <=? c) && (c <=? 57))%N with true by lia.
    replace (Z.of_N (c - 48)) with (Z.of_N c - 48) by lia. destruct (acc * 10 + (Z.of_N c - 48) <? two32) eqn:E.
    + apply IH; [lia|exact Hs].
    + assert (M : forall s n, two32 <= n -> Forall (fun c => (48 <= c <= 57)%N) s -> two32 <= fold_left (fun n c => n * 10 + (Z.of_N c - 48)) s n).
      { clear. induction s as [|c s IH]; intros n Hn HF; [exact Hn|]. inversion HF; subst. apply IH; [unfold two32 in *; lia|assumption]. }
      specialize (M s (acc * 10 + (Z.of_N c - 48)) ltac:(lia) Hs).
      destruct (fold_left _ s _ <? two32) eqn:E'; [lia|reflexivity].
Qed.
Lemma parse_digits_inv s : forall acc n, parse_digits acc s = Ok n -> Forall (fun c => (48 <= c <= 57)%N) s.
Proof.
  induction s as [|c s IH]; intros acc n H; [constructor|]. cbn [parse_digits] in H.
  destruct ((48 <=? c) && (c <=? 57))%N eqn:E; [|discriminate]. destruct (_ <? two32); [|discriminate]. constructor; [lia|apply (IH _ _ H)].
Qed.
Lemma digits_nonneg s acc : 0 <= acc -> Forall (fun c => (48 <= c <= 57)%N) s -> 0 <= fold_left (fun n c => n * 10 + (Z.of_N c - 48)) s acc.
Proof. revert acc. induction s as [|c s IH]; intros acc Ha HF; [exact Ha|]. inversion HF; subst. apply IH; [lia|assumption]. Qed.
Lemma no_plus c s : c <> 43%N -> match c :: s with 43%N :: s' => s' | _ => c :: s end = c :: s.
Proof.
  intros H. destruct c as [|p]; [reflexivity|].
  do 6 (try (destruct p as [p|p|]; try reflexivity)); congruence.
Qed.
Lemma Version_parse_iff s v : Version_parse s = Ok v <-> exists d, (s = d \/ s = 43%N :: d) /\ digits d /\ decimal d = w32_to_Z v.
Proof.
  assert (K : forall d, digits d -> (match d with [] => Err | _ => n <~ parse_digits 0 d ;; Ok (Z_to_w32 n) end) = Ok v <-> decimal d = w32_to_Z v).
  { intros d [Hn Hd]. pose proof (parse_digits_ok d 0 ltac:(unfold two32; lia) Hd) as P. cbv zeta in P. fold (decimal d) in P.
    pose proof (digits_nonneg d 0 ltac:(lia) Hd) as Q. fold (decimal d) in Q. destruct d as [|c d]; [congruence|]. rewrite P.
    pose proof (w32_to_Z_range v) as HR. unfold two32 in *. destruct (decimal (c :: d) <? 4294967296) eqn:E; cbn [rbind].
    - split; [intros [= <-]; symmetry; apply w32_to_Z_small; lia|]. intros ->. rewrite Z_to_w32_to_Z. reflexivity.
    - split; [discriminate|lia]. }
  assert (N43 : forall d, digits d -> match d with 43%N :: s' => s' | _ => d end = d).
  { intros [|c d] [Hn Hd]; [congruence|]. inversion Hd; subst. assert (c <> 43%N) by lia.
    apply no_plus; assumption. }
  unfold Version_parse. cbv zeta. split.
  - intros H. set (d := match s with 43%N :: s' => s' | _ => s end) in *. exists d.
    assert (D : digits d).
    { split; [intros ->; discriminate|]. destruct d as [|c d']; [constructor|]. destruct (parse_digits 0 (c :: d')) eqn:E; [|discriminate]. apply (parse_digits_inv _ _ _ E). }
    split; [|split; [exact D|apply K; assumption]].
    unfold d. destruct s as [|c s']; [left; reflexivity|].
    destruct (N.eq_dec c 43) as [->|Hc]; [right; reflexivity|left]. symmetry. apply no_plus, Hc.
  - intros (d & [->| ->] & D & E).
    + rewrite (N43 d D). apply K; assumption.
    + apply K; assumption.
Qed.
Lemma Version_parse_text v : Version_parse (Version_text v) = Ok v.
Proof.
  apply Version_parse_iff. exists (Version_text v). unfold Version_text. split; [left; reflexivity|]. split; [split; [apply dec_text_cons|apply dec_text_digits]|].
  pose proof (dec_text_value (Z.to_N (w32_to_Z v))) as E. pose proof (w32_to_Z_range v). unfold decimal.
  assert (G : forall s n, Forall (fun c => (48 <= c <= 57)%N) s ->
    fold_left (fun n c => n * 10 + (Z.of_N c - 48)) s (Z.of_N n) = Z.of_N (fold_left (fun n c => n * 10 + (c - 48))%N s n)).
  { induction s as [|c s IH]; intros n HF; [reflexivity|]. inversion HF; subst. cbn [fold_left]. rewrite <- IH by assumption. f_equal. lia. }
  rewrite (G _ 0%N (dec_text_digits _)). unfold dec_value in E. rewrite E. lia.
Qed.

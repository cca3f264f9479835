(** Proofs about converting the images of a table file to WebP. *)
From Verif Require Import Base Text Biff Quantize Common Enums Structs GameItem GameData Image Sound Cfb TableInfo Vpx Webp.
From Verif Require Import BaseFacts TextFacts BiffFacts CommonFacts RecordFacts GameDataFacts GameDataProps GameItemFacts GameItemStored ImageProps.
From Verif Require SoundFacts.
From Verif Require Import SpecBiff SpecStructs SpecImage SpecSound StructsProps CfbFacts SpecVpx TableInfoFacts MacFacts VpxFacts SpecTable TableFacts EditFacts OpsFacts VpxProps.
From Verif Require Import SpecWebp.

(** ** File names *)
Lemma extension_iff p e : extension p e <-> e = path_ext p.
Proof.
  unfold extension. split.
  - intros [HN [->|[q ->]]]; symmetry; [apply path_ext_plain, HN|apply (path_ext_split q e), HN].
  - intros ->. unfold path_ext. destruct (after_last_dot p) as [e|] eqn:E.
    + apply after_last_dot_some in E. destruct E as (q & -> & HN). split; [exact HN|]. right. exists q. reflexivity.
    + apply after_last_dot_none in E. split; [exact E|left; reflexivity].
Qed.
Lemma alnum_iff c : is_ascii_alnum c = true <-> letter_or_digit c.
Proof. unfold is_ascii_alnum, letter_or_digit. rewrite !orb_true_iff, !andb_true_iff, !N.leb_le. tauto. Qed.
Lemma alnum_all e : Forall letter_or_digit e <-> forallb is_ascii_alnum e = true.
Proof. rewrite forallb_forall, Forall_forall. split; intros H c Hc; apply alnum_iff, H, Hc. Qed.
Lemma renamed_iff p p' : renamed p p' <-> p' = replace_ext (lit "webp") p.
Proof.
  split.
  - intros [(q & e & (-> & He & Ha) & ->)|[H ->]].
    + symmetry. apply (replace_ext_split q e (lit "webp")); [exact He|apply alnum_all, Ha].
    + symmetry. apply replace_ext_other. intros q e E He Ha. apply (H q e). split; [exact E|]. split; [exact He|apply alnum_all, Ha].
  - intros ->. destruct (replace_ext_changed (lit "webp") p) as [(q & e & E & He & Ha & ->)|[H ->]].
    + left. exists q, e. split; [|reflexivity]. split; [exact E|]. split; [exact He|]. eapply Forall_impl; [|exact Ha]. intros c. apply alnum_iff.
    + right. split; [|reflexivity]. intros q e (E & He & Ha). apply (H q e E He). eapply Forall_impl; [|exact Ha]. intros c. apply alnum_iff.
Qed.
Lemma named_iff lower t i : named lower t i <-> lower (ImageData_ext i) = lit t.
Proof.
  unfold named. split; [intros (e & E & H); apply extension_iff in E; subst e; exact H|].
  intros H. exists (ImageData_ext i). split; [apply extension_iff; reflexivity|exact H].
Qed.
Lemma lit_eqb s t : rstring_eqb s (lit t) = true <-> s = lit t.
Proof. split; [apply SoundFacts.rstring_eqb_eq|intros ->; apply rstring_eqb_refl]. Qed.
Lemma lit_eqb_false s t : s <> lit t -> rstring_eqb s (lit t) = false.
Proof. apply rstring_eqb_neq. Qed.

Section W.
Variable up : N -> N.
Variable lower : rstring -> rstring.
Variable lzw_decode : bytes -> res bytes.
Variable decode_png : bytes -> res dyn_image.
Variable webp : dyn_image -> res bytes.
Local Notation image_after := (image_after lower lzw_decode decode_png webp).
Local Notation images_after := (images_after lower lzw_decode decode_png webp).
Local Notation refused := (refused lower lzw_decode decode_png webp).
Local Notation webp_loop := (webp_loop up lower lzw_decode decode_png webp).
Local Notation images_to_webp := (images_to_webp up lower lzw_decode decode_png webp).
Local Notation keys := (keys up).

Lemma cf_set_id p n f : cf_find up p f = Some n -> cf_set up p n f = f.
Proof.
  induction f as [|[q m] f IH]; cbn [cf_find cf_set]; [discriminate|]. destruct (path_eqb up p q); [intros [= ->]; reflexivity|].
  intros H. rewrite IH by exact H. reflexivity.
Qed.
Lemma write_image_ok i v f d d' : cf_node up (stream_path "Image" i) f = Some (Stream d) -> ImageData_write v = Ok d' ->
  write_image up i v f = (cf_set up (stream_path "Image" i) (Stream d') f, Ok tt).
Proof. intros H W. unfold write_image, cf_create_stream. rewrite H, W, cf_set_set. reflexivity. Qed.

Lemma loop_step checked n i conv f v v' cs d d' :
  cf_node up (stream_path "Image" i) f = Some (Stream d) -> ImageData_read checked d = Ok v -> ImageData_write v = Ok d ->
  image_after v v' cs -> ImageData_write v' = Ok d' ->
  webp_loop checked (S n) i conv f = webp_loop checked n (i + 1) (conv ++ cs) (cf_set up (stream_path "Image" i) (Stream d') f).
Proof.
  intros HN HR HW HA HW'.
  assert (SAME : v' = v -> cf_set up (stream_path "Image" i) (Stream d') f = f).
  { intros ->. rewrite HW in HW'. injection HW' as <-. apply cf_set_id. rewrite <- cf_node_find by discriminate. exact HN. }
  cbn [Webp.webp_loop]. unfold read_image at 1, cf_get. rewrite HN. cbn [rbind]. rewrite HR. cbv beta iota zeta.
  destruct HA as [H1 H2|H1 H2|j H1 H2 H3|j picture w path fp H1 H2 H3 H4 H5 H6|H1 H2|b picture w path H1 H2 H3 H4 H5].
  - rewrite named_iff in H1, H2. rewrite (lit_eqb_false _ "png"), (lit_eqb_false _ "bmp") by assumption. rewrite SAME, app_nil_r by reflexivity. reflexivity.
  - rewrite named_iff in H1. rewrite (proj2 (lit_eqb _ _) H1). destruct v as [a1 a2 a3 a4 a5 a6 a7 a8 a9 a10 a11 a12]. cbn in H2 |- *. subst. cbn. rewrite SAME, app_nil_r by reflexivity. reflexivity.
  - rewrite named_iff in H1. rewrite (proj2 (lit_eqb _ _) H1). rewrite SAME, app_nil_r by reflexivity. destruct v as [a1 a2 a3 a4 a5 a6 a7 a8 a9 a10 a11 a12]. cbn in H2. subst.
    cbn [ImageData_change_extension im_jpeg set_im_jpeg ij_data]. rewrite H3. reflexivity.
  - rewrite named_iff in H1. rewrite (proj2 (lit_eqb _ _) H1). apply renamed_iff in H5, H6. subst path fp. destruct v as [a1 a2 a3 a4 a5 a6 a7 a8 a9 a10 a11 a12]. cbn in H2. subst.
    cbn [ImageData_change_extension im_jpeg im_path im_name set_im_jpeg set_im_path ij_data ij_path ij_name ij_internal_name] in *. rewrite H3, H4.
    unfold with_file in HW'. cbn [im_name im_internal_name im_path im_width im_height im_link im_alpha_test_value im_is_opaque im_is_signed im_bits im_md5_hash] in HW'.
    cbn [ij_path ij_name ij_internal_name] in HW'.
    erewrite write_image_ok; [|exact HN|exact HW']. reflexivity.
  - rewrite named_iff in H1. rewrite (lit_eqb_false _ "png") by (rewrite H1; discriminate). rewrite (proj2 (lit_eqb _ _) H1).
    rewrite SAME by reflexivity. destruct v as [a1 a2 a3 a4 a5 a6 a7 a8 a9 a10 a11 a12]. cbn in H2. subst. reflexivity.
  - rewrite named_iff in H1. rewrite (lit_eqb_false _ "png") by (rewrite H1; discriminate). rewrite (proj2 (lit_eqb _ _) H1).
    apply renamed_iff in H5. subst path. destruct v as [a1 a2 a3 a4 a5 a6 a7 a8 a9 a10 a11 a12]. cbn in H2. subst.
    cbn [ImageData_change_extension im_bits im_width im_height im_path im_name set_im_jpeg set_im_path set_im_bits] in *. rewrite H3, H4.
    unfold with_file in HW'. cbn [im_name im_internal_name im_path im_width im_height im_link im_alpha_test_value im_is_opaque im_is_signed im_bits im_md5_hash] in HW'.
    erewrite write_image_ok; [|exact HN|exact HW']. reflexivity.
Qed.
Lemma loop_refused checked n i conv f v e d :
  cf_node up (stream_path "Image" i) f = Some (Stream d) -> ImageData_read checked d = Ok v -> refused v e ->
  webp_loop checked (S n) i conv f = (f, Fail e).
Proof.
  intros HN HR HA. cbn [Webp.webp_loop]. unfold read_image at 1, cf_get. rewrite HN. cbn [rbind]. rewrite HR. cbv beta iota zeta.
  destruct HA as [(j & H1 & H2 & H3)|(b & H1 & H2 & H3)]; rewrite named_iff in H1.
  - rewrite (proj2 (lit_eqb _ _) H1). destruct v as [a1 a2 a3 a4 a5 a6 a7 a8 a9 a10 a11 a12]. cbn in H2. subst.
    cbn [ImageData_change_extension im_jpeg set_im_jpeg ij_data]. destruct H3 as [[H3 H4]|(p & H3 & H4)]; rewrite H3; [|rewrite H4; reflexivity].
    destruct e; [reflexivity|reflexivity|congruence].
  - rewrite (lit_eqb_false _ "png") by (rewrite H1; discriminate). rewrite (proj2 (lit_eqb _ _) H1).
    destruct v as [a1 a2 a3 a4 a5 a6 a7 a8 a9 a10 a11 a12]. cbn in H2. subst.
    cbn [ImageData_change_extension im_bits im_width im_height set_im_jpeg set_im_path] in *.
    destruct H3 as [H3|(p & H3 & H4)]; rewrite H3; [reflexivity|rewrite H4; reflexivity].
Qed.

Definition stored_as (v : ImageData) (d : bytes) : Prop := ImageData_write v = Ok d /\ forall c, ImageData_read c d = Ok v.
Lemma set_middle pre q n m post : NoDup (keys (pre ++ (q, n) :: post)) -> cf_set up q m (pre ++ (q, n) :: post) = pre ++ (q, m) :: post.
Proof.
  intros H. rewrite cf_set_app.
  - cbn [cf_set]. rewrite path_eqb_refl. reflexivity.
  - apply cf_find_none. intros Hin. rewrite keys_app in H. apply NoDup_remove_2 in H. apply H. apply in_or_app. left. exact Hin.
Qed.
Lemma loop_ok checked n : forall vs vs' cs ds ds' i conv pre post, images_after vs vs' cs -> Forall2 stored_as vs ds -> Forall2 stored_as vs' ds' ->
  NoDup (keys (pre ++ numbered_part "Image" i ds ++ post)) ->
  webp_loop checked (List.length vs + n) i conv (pre ++ numbered_part "Image" i ds ++ post) =
  webp_loop checked n (i + N.of_nat (List.length vs)) (conv ++ cs) (pre ++ numbered_part "Image" i ds' ++ post).
Proof.
  intros vs vs' cs ds ds' i conv pre post H. revert ds ds' i conv pre. induction H as [|v v' cs vs vs' cs' HA HAs IH]; intros ds ds' i conv pre H1 H2 HN.
  - inversion H1; inversion H2; subst. cbn [List.length plus numbered_part N.of_nat]. rewrite N.add_0_r, app_nil_r. reflexivity.
  - inversion H1 as [|? d ? ds1 [W1 R1] H1']; inversion H2 as [|? d' ? ds1' [W2 R2] H2']; subst.
    cbn [List.length plus numbered_part app] in *.
    pose proof HN as HN0. erewrite loop_step; [| |apply R1|exact W1|exact HA|exact W2].
    2:{ apply cf_node_in; [discriminate|exact HN|]. apply in_or_app. right. left. reflexivity. }
    rewrite set_middle by exact HN.
    change (pre ++ (stream_path "Image" i, Stream d') :: numbered_part "Image" (i + 1) ds1 ++ post) with
      (pre ++ [(stream_path "Image" i, Stream d')] ++ numbered_part "Image" (i + 1) ds1 ++ post).
    rewrite app_assoc. erewrite IH; [|exact H1'|exact H2'|].
    + replace (i + 1 + N.of_nat (List.length vs))%N with (i + N.of_nat (S (List.length vs)))%N by lia. rewrite <- !app_assoc. reflexivity.
    + rewrite <- app_assoc. cbn [app]. rewrite !keys_app in *. exact HN0.
Qed.

(** ** Written tables *)
Definition parts_with (p : parts) (images : list bytes) : parts :=
  mkParts (pt_tags p) (pt_info p) (pt_version p) (pt_gamedata p) (pt_items p) images (pt_sounds p) (pt_fonts p) (pt_collections p).
Lemma full_split p m : exists pre post, forall images,
  full_file up (parts_with p images) m = pre ++ numbered_part "Image" 0 images ++ post.
Proof.
  exists ([([GameStg], Storage)] ++ game_stream "CustomInfoTags" (pt_tags p) ++ info_part (pt_info p) ++ game_stream "Version" (pt_version p) ++
          game_stream "GameData" (pt_gamedata p) ++ numbered_part "GameItem" 0 (pt_items p)).
  exists (numbered_part "Sound" 0 (pt_sounds p) ++ numbered_part "Font" 0 (pt_fonts p) ++ numbered_part "Collection" 0 (pt_collections p) ++ game_stream "MAC" m).
  intros images. rewrite full_file_eq. unfold file_of, file_parts. cbv zeta. cbn [flat_map snd].
  change (pt_tags (parts_with p images)) with (pt_tags p). change (pt_info (parts_with p images)) with (pt_info p).
  change (pt_version (parts_with p images)) with (pt_version p). change (pt_gamedata (parts_with p images)) with (pt_gamedata p).
  change (pt_items (parts_with p images)) with (pt_items p). change (pt_images (parts_with p images)) with images.
  change (pt_sounds (parts_with p images)) with (pt_sounds p). change (pt_fonts (parts_with p images)) with (pt_fonts p).
  change (pt_collections (parts_with p images)) with (pt_collections p).
  rewrite app_nil_r, <- !app_assoc. reflexivity.
Qed.
Lemma forall2_fun {A B} (g : A -> res B) l : forall ds ds', Forall2 (fun x d => g x = Ok d) l ds -> Forall2 (fun x d => g x = Ok d) l ds' -> ds = ds'.
Proof.
  induction l as [|x l IH]; intros ds ds' H H'; inversion H as [|? d ? ds1 H1 H2]; inversion H' as [|? d' ? ds1' H1' H2']; subst; [reflexivity|].
  rewrite H1 in H1'. injection H1' as <-. f_equal. apply IH; assumption.
Qed.
Lemma encoded_unique v p q : Encoded v p -> Encoded v q -> p = q.
Proof.
  intros (A1 & A2 & A3 & A4 & A5 & A6 & A7 & A8 & A9) (B1 & B2 & B3 & B4 & B5 & B6 & B7 & B8 & B9). destruct p as [p1 p2 p3 p4 p5 p6 p7 p8 p9], q as [q1 q2 q3 q4 q5 q6 q7 q8 q9].
  cbn [pt_tags pt_info pt_version pt_gamedata pt_items pt_images pt_sounds pt_fonts pt_collections] in *.
  rewrite A1 in B1. rewrite A4 in B4. injection B1 as <-. injection B4 as <-. subst.
  rewrite (forall2_fun _ _ _ _ A5 B5), (forall2_fun _ _ _ _ A6 B6), (forall2_fun _ _ _ _ A7 B7), (forall2_fun _ _ _ _ A8 B8), (forall2_fun _ _ _ _ A9 B9). reflexivity.
Qed.
Lemma encoded_with v p images ds : Encoded v p -> Forall2 (fun x d => ImageData_write x = Ok d) images ds -> Encoded (with_images images v) (parts_with p ds).
Proof. intros (A1 & A2 & A3 & A4 & A5 & A6 & A7 & A8 & A9) H. repeat split; assumption. Qed.
Lemma fits_with v images : table_fits up v -> Forall (fun i => image_fits i /\ one_kind i) images -> List.length images = List.length (vpx_images v) ->
  table_fits up (with_images images v).
Proof.
  intros (H1 & H2 & H3 & H4 & H5 & H6 & H7 & H8 & (C1 & C2 & C3 & C4 & C5)) HI HL. repeat (split; [assumption|]). repeat split; try assumption.
  cbn [with_images vpx_gamedata vpx_images]. unfold zlen in *. rewrite HL. exact C2.
Qed.
(** Tables that differ in their images only get the same message authentication code. *)
Lemma written_with md2 v images : table_fits up v -> Forall (fun i => image_fits i /\ one_kind i) images -> List.length images = List.length (vpx_images v) ->
  exists p m ds, Encoded v p /\ Forall2 stored_as (vpx_images v) (pt_images p) /\ Forall2 stored_as images ds /\
    (forall c, write_vpx up md2 c v [] = Ok (full_file up p m)) /\
    (forall c, write_vpx up md2 c (with_images images v) [] = Ok (full_file up (parts_with p ds) m)) /\ info_fits up (pt_info p) /\
    (forall c, file_read_gamedata up c (full_file up p m) = Ok (GameData_stored (w32_to_Z (vpx_version v)) (vpx_gamedata v))).
Proof.
  intros Hv HI HL. pose proof (fits_with _ _ Hv HI HL) as Hw. set (w := with_images images v) in *.
  destruct (table_written up md2 v Hv) as (p & b & s & a & HEv & _ & HDv & Gv & _ & VB & VA & NC & FS & Hhv & Mv & Wv).
  destruct (table_written up md2 w Hw) as (p' & b' & s' & a' & HEw & _ & _ & Gw & _ & _ & _ & _ & _ & Hhw & Mw & Ww).
  assert (ST : forall l ds, Forall (fun i => image_fits i /\ one_kind i) l -> Forall2 (fun x d => ImageData_write x = Ok d) l ds -> Forall2 stored_as l ds).
  { intros l ds HF H. induction H as [|x d l ds Hx H IH]; [constructor|]. inversion HF as [|? ? [F1 F2] F3]; subst. constructor; [|apply IH, F3].
    destruct (image_roundtrip x F1 F2) as (d0 & W0 & R0). rewrite Hx in W0. injection W0 as <-. split; assumption. }
  assert (EP : p' = parts_with p (pt_images p')).
  { eapply encoded_unique; [exact HEw|]. apply encoded_with; [exact HEv|]. apply HEw. }
  exists p, (table_hash up md2 (file_of up p) v b s a), (pt_images p').
  pose proof Hv as (_ & HIv & _). pose proof Hw as (_ & HIw & _).
  assert (Iv : pt_info p = vpx_info v) by apply HEv. assert (Iw : pt_info p' = vpx_info w) by apply HEw. rewrite <- Iv in HIv. rewrite <- Iw in HIw.
  split; [exact HEv|]. split; [apply ST; [apply Hv|apply HEv]|]. split; [apply ST; [exact HI|apply HEw]|]. split; [exact Wv|]. split; [|split; [exact HIv|]].
  - intros c. rewrite Ww, <- EP. f_equal. f_equal.
    assert (E : Ok (table_hash up md2 (file_of up p') w b' s' a') = Ok (table_hash up md2 (file_of up p) v b s a)); [|injection E as E; exact E].
    assert (EGD : pt_gamedata p' = pt_gamedata p) by (rewrite EP; reflexivity).
    rewrite <- (Mv [] true), <- (Mw [] true).
    apply mac_covers with (tags := Some (vpx_custominfotags v)) (cols := map collection_records (vpx_collections v)) (before := b) (script := s) (after := a); auto.
    + rewrite <- Gv, <- EGD. apply cf_node_in; [discriminate|apply full_nodup, HIw|]. eapply in_full; [do 4 right; left; reflexivity|left; reflexivity].
    + rewrite <- Gv. apply cf_node_in; [discriminate|apply full_nodup, HIv|]. eapply in_full; [do 4 right; left; reflexivity|left; reflexivity].
    + intros q Hq. unfold content. destruct Hq as [<-|Hq].
      * assert (VN : forall q, info_fits up (pt_info q) -> cf_node up [GameStg; lit "Version"] (full_file up q []) = Some (Stream (pt_version q))).
        { intros q HI0. apply cf_node_in; [discriminate|apply full_nodup, HI0|]. eapply in_full; [do 3 right; left; reflexivity|left; reflexivity]. }
        rewrite !VN by assumption. rewrite EP. reflexivity.
      * apply in_app_or in Hq. destruct Hq as [Hq|Hq]; apply in_map_iff in Hq; destruct Hq as (n & <- & Hn); rewrite !info_lookup, Iv, Iw; reflexivity.
  - intros c. set (m := table_hash up md2 (file_of up p) v b s a). destruct (HDv c) as (_ & D2 & D3 & _).
    assert (GV : cf_node up [GameStg; lit "Version"] (full_file up p m) = Some (Stream (pt_version p))).
    { apply cf_node_in; [discriminate|apply full_nodup, HIv|]. eapply in_full; [do 3 right; left; reflexivity|left; reflexivity]. }
    assert (GG : cf_node up [GameStg; lit "GameData"] (full_file up p m) = Some (Stream (pt_gamedata p))).
    { apply cf_node_in; [discriminate|apply full_nodup, HIv|]. eapply in_full; [do 4 right; left; reflexivity|left; reflexivity]. }
    cbn [stored_table vpx_version vpx_gamedata] in D2, D3.
    unfold file_read_gamedata, read_version, cf_get. rewrite GV, D2. destruct (vpx_version v) as [b0 b1 b2 b3]. cbn [rbind w32_bytes w32_0 w32_1 w32_2 w32_3].
    unfold read_gamedata, cf_get. rewrite GG. cbn [rbind]. exact D3.
Qed.

Lemma after_length vs vs' cs : images_after vs vs' cs -> List.length vs' = List.length vs.
Proof. induction 1; cbn [List.length]; congruence. Qed.
Lemma images_count v : table_fits up v ->
  u32_nat (gt_images_size (gd_tail (GameData_stored (w32_to_Z (vpx_version v)) (vpx_gamedata v)))) = List.length (vpx_images v).
Proof.
  intros (_ & _ & _ & _ & _ & _ & _ & _ & HC). pose proof (counts_stored (vpx_info v) v HC) as (_ & C2 & _).
  apply u32_nat_len. exact C2.
Qed.
Lemma converted md2 checked v images cs : table_fits up v -> images_after (vpx_images v) images cs ->
  Forall (fun i => image_fits i /\ one_kind i) images ->
  exists f f', (forall c, write_vpx up md2 c v [] = Ok f) /\ (forall c, write_vpx up md2 c (with_images images v) [] = Ok f') /\
    images_to_webp checked f = (f', Ok cs).
Proof.
  intros Hv HA HI. destruct (written_with md2 v images Hv HI (after_length _ _ _ HA)) as (p & m & ds & HE & S1 & S2 & W1 & W2 & HF & HG).
  eexists _, _. split; [exact W1|]. split; [exact W2|]. unfold Webp.images_to_webp. rewrite HG, images_count by exact Hv.
  destruct (full_split p m) as (pre & post & HS). pose proof (HS (pt_images p)) as HS0. replace (parts_with p (pt_images p)) with p in HS0 by (destruct p; reflexivity).
  pose proof (full_nodup up p m HF) as HN. rewrite HS0 in *. rewrite HS.
  pose proof (loop_ok checked 0 _ _ _ _ _ 0 [] pre post HA S1 S2 HN) as L. rewrite Nat.add_0_r in L. rewrite L. reflexivity.
Qed.
Lemma converted_until md2 checked v is i is' images cs e : table_fits up v -> vpx_images v = is ++ i :: is' -> images_after is images cs -> refused i e ->
  Forall (fun i => image_fits i /\ one_kind i) images ->
  exists f f', (forall c, write_vpx up md2 c v [] = Ok f) /\ (forall c, write_vpx up md2 c (with_images (images ++ i :: is') v) [] = Ok f') /\
    images_to_webp checked f = (f', Fail e).
Proof.
  intros Hv EV HA HRf HI.
  assert (HI' : Forall (fun i => image_fits i /\ one_kind i) (images ++ i :: is')).
  { apply Forall_app. split; [exact HI|]. destruct Hv as (_ & _ & _ & _ & H5 & _). rewrite EV in H5. apply Forall_app in H5. apply H5. }
  assert (HL : List.length (images ++ i :: is') = List.length (vpx_images v)) by (rewrite EV, !app_length, (after_length _ _ _ HA); reflexivity).
  destruct (written_with md2 v _ Hv HI' HL) as (p & m & ds & HE & S1 & S2 & W1 & W2 & HF & HG).
  eexists _, _. split; [exact W1|]. split; [exact W2|]. unfold Webp.images_to_webp. rewrite HG, images_count by exact Hv.
  destruct (full_split p m) as (pre & post & HS). pose proof (HS (pt_images p)) as HS0. replace (parts_with p (pt_images p)) with p in HS0 by (destruct p; reflexivity).
  pose proof (full_nodup up p m HF) as HN. rewrite EV in S1.
  apply Forall2_app_inv_l in S1. destruct S1 as (ds1 & dr & A1 & A2 & ED). apply Forall2_app_inv_l in S2. destruct S2 as (ds1' & dr' & B1 & B2 & ED').
  inversion A2 as [|? d ? dr1 [Wd Rd] A3]; subst. inversion B2 as [|? d' ? dr1' [Wd' Rd'] B3]; subst.
  rewrite Wd in Wd'. injection Wd' as <-.
  assert (E3 : dr1 = dr1').
  { eapply (forall2_fun ImageData_write is'); [eapply Forall2_impl; [|exact A3]|eapply Forall2_impl; [|exact B3]]; intros x y [E _]; exact E. }
  subst dr1'. rewrite ED in *. rewrite HS0, HS.
  assert (NA : forall l1 l2 k, numbered_part "Image" k (l1 ++ l2) = numbered_part "Image" k l1 ++ numbered_part "Image" (k + N.of_nat (List.length l1)) l2).
  { clear. induction l1 as [|x l1 IH]; intros l2 k; cbn [app numbered_part List.length N.of_nat]; [rewrite N.add_0_r; reflexivity|].
    rewrite IH. cbn [app]. do 3 f_equal. lia. }
  rewrite HS0 in HN.
  assert (HN2 : NoDup (keys (pre ++ numbered_part "Image" 0 (ds1' ++ d :: dr1) ++ post))).
  { rewrite <- HS. apply full_nodup. exact HF. }
  rewrite !NA, <- !app_assoc in *. rewrite EV, app_length. cbn [List.length].
  rewrite (loop_ok checked (S (List.length is')) _ _ _ _ _ 0 [] pre _ HA A1 B1 HN). cbn [app].
  assert (L1 : List.length ds1 = List.length is) by (symmetry; exact (Forall2_len _ _ _ A1)).
  assert (L2 : List.length ds1' = List.length images) by (symmetry; exact (Forall2_len _ _ _ B1)).
  rewrite (after_length _ _ _ HA) in L2. rewrite L1, L2 in *.
  eapply loop_refused; [|apply Rd|exact HRf]. apply cf_node_in; [discriminate|exact HN2|].
  apply in_or_app. right. apply in_or_app. right. left. reflexivity.
Qed.
(** ** Every image is handled, and the result can be stored *)
Lemma after_total i : (exists i' cs, image_after i i' cs) \/ (exists e, refused i e).
Proof.
  destruct (rstring_eqb (lower (ImageData_ext i)) (lit "png")) eqn:E1; [apply lit_eqb, named_iff in E1|].
  - destruct (im_jpeg i) as [j|] eqn:EJ; [|left; eexists _, _; apply After_png_none; assumption].
    destruct (decode_png (ij_data j)) as [pic|e] eqn:ED.
    + destruct (webp pic) as [w|e] eqn:EW.
      * left. eexists _, _. eapply After_png; try eassumption; apply renamed_iff; reflexivity.
      * right. exists e. left. exists j. split; [exact E1|]. split; [exact EJ|]. right. eauto.
    + destruct e; [| |left; eexists _, _; eapply After_png_broken; eassumption].
      all: right; eexists; left; exists j; (split; [exact E1|]); (split; [exact EJ|]); left; split; [exact ED|discriminate].
  - assert (N1 : ~ named lower "png" i) by (rewrite named_iff; intros H; apply lit_eqb in H; congruence).
    destruct (rstring_eqb (lower (ImageData_ext i)) (lit "bmp")) eqn:E2; [apply lit_eqb, named_iff in E2|].
    + destruct (im_bits i) as [b|] eqn:EB; [|left; eexists _, _; apply After_bmp_none; assumption].
      destruct (vpx_image_to_dynamic_image lzw_decode b (w32_to_Z (im_width i)) (w32_to_Z (im_height i))) as [pic|e] eqn:ED.
      * destruct (webp pic) as [w|e] eqn:EW.
        -- left. eexists _, _. eapply After_bmp; try eassumption; apply renamed_iff; reflexivity.
        -- right. exists e. right. exists b. split; [exact E2|]. split; [exact EB|]. right. eauto.
      * right. exists e. right. exists b. split; [exact E2|]. split; [exact EB|]. left. exact ED.
    + assert (N2 : ~ named lower "bmp" i) by (rewrite named_iff; intros H; apply lit_eqb in H; congruence).
      left. eexists _, _. apply After_other; assumption.
Qed.
Lemma renamed_fits p p' : string_fits p -> size_fits (zlen p + 3) -> renamed p p' -> string_fits p'.
Proof.
  intros [HL _] HS [(q & e & (-> & He & Ha) & ->)|[_ ->]].
  - apply Forall_app in HL. destruct HL as [HL _]. split.
    + apply Forall_app. split; [exact HL|]. repeat constructor; vm_compute; discriminate.
    + unfold size_fits in *. rewrite !zlen_app in *. destruct e as [|c e]; [congruence|]. rewrite zlen_cons in HS. pose proof (zlen_nonneg e).
      change (zlen (lit ".webp")) with 5. change (zlen (lit ".")) with 1 in HS. lia.
  - split; [exact HL|]. unfold size_fits in *. lia.
Qed.
Lemma after_fits i i' cs : image_fits i -> one_kind i -> path_room i -> files_fit webp -> image_after i i' cs -> image_fits i' /\ one_kind i'.
Proof.
  intros (F1 & F2 & F3 & F4 & F5 & F6) HK [R1 R2] HW HA.
  destruct HA as [H1 H2|H1 H2|j H1 H2 H3|j picture w path fp H1 H2 H3 H4 H5 H6|H1 H2|b picture w path H1 H2 H3 H4 H5];
    try exact (conj (conj F1 (conj F2 (conj F3 (conj F4 (conj F5 F6))))) HK).
  - rewrite H2 in F5, R2. cbn [option_all] in F5, R2. destruct F5 as (G1 & G2 & G3 & G4). split.
    + repeat (split; [assumption|]). split; [eapply renamed_fits; [| |exact H5]; assumption|]. split; [assumption|]. split; [|assumption].
      split; [assumption|]. split; [assumption|]. split; [eapply renamed_fits; [| |exact H6]; assumption|]. eapply HW, H4.
    + left. destruct HK as [HK|HK]; [exact HK|congruence].
  - pose proof (renamed_fits _ _ F3 R1 H5) as HP. split; [|left; reflexivity].
    repeat (split; [assumption|]). split; [exact I|]. split; [|assumption]. split; [assumption|]. split; [exact I|]. split; [exact HP|]. eapply HW, H4.
Qed.
Lemma all_fit vs vs' cs : Forall (fun i => image_fits i /\ one_kind i) vs -> Forall path_room vs -> files_fit webp -> images_after vs vs' cs ->
  Forall (fun i => image_fits i /\ one_kind i) vs'.
Proof.
  intros HF HR HW HA. induction HA as [|i i' cs is is' cs' H1 HA IH]; [constructor|].
  inversion HF as [|? ? [A1 A2] A3]; inversion HR as [|? ? B1 B2]; subst. constructor; [eapply after_fits; eassumption|apply IH; assumption].
Qed.

(** ** The second time *)
Lemma after_again i i' cs : lower (lit "webp") = lit "webp" -> (forall picture w, webp picture = Ok w -> decode_png w = Err) ->
  image_after i i' cs -> exists cs', image_after i' i' cs' /\ Forall (fun c => cv_old_extension c = lit "bmp") cs'.
Proof.
  intros HL HW HA. pose proof HA as HA0.
  assert (OTHER : forall j, lower (path_ext (im_path j)) = lit "webp" -> image_after j j []).
  { intros j E. apply After_other; rewrite named_iff; unfold ImageData_ext; rewrite E; discriminate. }
  assert (EXT : forall p, replace_ext (lit "webp") p = p \/ path_ext (replace_ext (lit "webp") p) = lit "webp").
  { intros p. destruct (replace_ext_changed (lit "webp") p) as [(q & e & E & He & Ha & ->)|[H ->]]; [right|left; reflexivity].
    apply path_ext_split. intros H. repeat (destruct H as [H|H]; [discriminate|]). destruct H. }
  destruct HA as [H1 H2|H1 H2|j H1 H2 H3|j picture w path fp H1 H2 H3 H4 H5 H6|H1 H2|b picture w path H1 H2 H3 H4 H5];
    try (exists []; split; [exact HA0|constructor]).
  - apply renamed_iff in H5. exists []. split; [|constructor]. destruct (EXT (im_path i)) as [E|E].
    + eapply After_png_broken; [|reflexivity|eapply HW, H4]. apply named_iff. apply named_iff in H1. unfold ImageData_ext in *.
      cbn [with_file im_path]. rewrite H5, E. exact H1.
    + apply OTHER. cbn [with_file im_path]. rewrite H5, E. exact HL.
  - exists [reported "bmp" i]. split; [exact HA0|]. constructor; [reflexivity|constructor].
  - apply renamed_iff in H5. destruct (EXT (im_path i)) as [E|E].
    + eexists. split; [apply After_bmp_none; [|reflexivity]|repeat constructor]. apply named_iff. apply named_iff in H1. unfold ImageData_ext in *.
      cbn [with_file im_path]. rewrite H5, E. exact H1.
    + exists []. split; [|constructor]. apply OTHER. cbn [with_file im_path]. rewrite H5, E. exact HL.
Qed.
Lemma all_again vs vs' cs : lower (lit "webp") = lit "webp" -> (forall picture w, webp picture = Ok w -> decode_png w = Err) ->
  images_after vs vs' cs -> exists cs', images_after vs' vs' cs' /\ Forall (fun c => cv_old_extension c = lit "bmp") cs'.
Proof.
  intros HL HW HA. induction HA as [|i i' cs is is' cs' H1 HA (cs2 & IH1 & IH2)]; [exists []; split; constructor|].
  destruct (after_again _ _ _ HL HW H1) as (cs1 & E1 & E2). exists (cs1 ++ cs2). split; [constructor; assumption|apply Forall_app; auto].
Qed.

(** ** The picture *)
Variable decode : bytes -> res dyn_image.
Lemma no_alpha_colours px : uses_alpha (pixels_bytes px) = false -> exists colours, px = map opaque colours /\
  forall n, (n = List.length px)%nat -> drop_alpha n (pixels_bytes px) = flat_map (fun c => let '(r, g, b) := c in [r; g; b]) colours.
Proof.
  induction px as [|[r g b a] px IH]; intros H; [exists []; split; [reflexivity|intros n ->; reflexivity]|].
  cbn [pixels_bytes flat_map app uses_alpha ch0 ch1 ch2 ch3] in *. fold (pixels_bytes px) in *. apply orb_false_iff in H. destruct H as [H1 H2].
  apply negb_false_iff, Byte.byte_dec_bl in H1. subst a. destruct (IH H2) as (cols & -> & E). exists ((r, g, b) :: cols). split; [reflexivity|].
  intros n ->. cbn [List.length drop_alpha flat_map app]. rewrite E by reflexivity. reflexivity.
Qed.
Lemma bitmap_picture b d width height px : 0 <= width * height -> zlen px = width * height -> from_blocks b = Ok d -> lzw_decode d = Ok (pixels_bytes (map swap_px px)) ->
  exists img, vpx_image_to_dynamic_image lzw_decode b width height = Ok img /\ picture_shows img width height px.
Proof.
  intros HP HL E1 E2. unfold vpx_image_to_dynamic_image, from_lzw_blocks. rewrite E1. cbn [rbind]. rewrite E2. cbn [rbind]. rewrite swap_pixels, map_map.
  rewrite (map_ext _ (fun p => p)) by (intros []; reflexivity). rewrite map_id, pixels_length, swap_uses_alpha.
  replace (4 * zlen px <? 4 * width * height) with false by lia.
  destruct (uses_alpha (pixels_bytes px)) eqn:EU; eexists; (split; [reflexivity|]); (split; [exact HL|]); [left; reflexivity|right].
  destruct (no_alpha_colours px EU) as (cols & -> & E). exists cols. split; [reflexivity|]. rewrite E; [reflexivity|]. unfold zlen in HL. lia.
Qed.
Lemma shows_not_other img width height px : picture_shows img width height px -> img <> ImageOther.
Proof. intros [_ [->|(c & _ & ->)]]; discriminate. Qed.
Lemma same_picture i i' cs width height px : (forall d p, decode_png d = Ok p -> decode d = Ok p) ->
  (forall p w, p <> ImageOther -> webp p = Ok w -> decode w = Ok p) ->
  image_after i i' cs -> image_shows lzw_decode decode i width height px -> image_shows lzw_decode decode i' width height px.
Proof.
  intros HP HL HA HS. unfold image_shows in *.
  destruct HA as [H1 H2|H1 H2|j H1 H2 H3|j picture w path fp H1 H2 H3 H4 H5 H6|H1 H2|b picture w path H1 H2 H3 H4 H5]; try assumption.
  - rewrite H2 in HS. cbn [with_file im_jpeg im_bits ij_data]. destruct (im_bits i); [contradiction|]. destruct HS as (img & E & HS).
    rewrite (HP _ _ H3) in E. injection E as ->. exists img. split; [|exact HS]. apply HL; [eapply shows_not_other, HS|exact H4].
  - rewrite H2 in HS. destruct (im_jpeg i); [contradiction|]. destruct HS as (<- & <- & HZ & d & E1 & E2). cbn [with_file im_jpeg im_bits ij_data].
    pose proof (w32_to_Z_range (im_width i)). pose proof (w32_to_Z_range (im_height i)).
    destruct (bitmap_picture b d (w32_to_Z (im_width i)) (w32_to_Z (im_height i)) px) as (img & E & HI); [nia|exact HZ|exact E1|exact E2|].
    rewrite H3 in E. injection E as <-. exists picture. split; [|exact HI]. apply HL; [eapply shows_not_other, HI|exact H4].
Qed.

(** ** Any file *)
Lemma write_image_other i v f f' r q : write_image up i v f = (f', r) -> cf_node up q f' <> cf_node up q f -> q <> [] ->
  path_eqb up q (stream_path "Image" i) = true.
Proof.
  unfold write_image, cf_create_stream. intros E HD HQ. destruct (path_eqb up q (stream_path "Image" i)) eqn:EQ; [reflexivity|]. exfalso. apply HD. clear HD.
  assert (SET : forall n g, cf_node up q (cf_set up (stream_path "Image" i) n g) = cf_node up q g).
  { intros n g. rewrite cf_node_set by (exact HQ || discriminate). rewrite EQ. reflexivity. }
  assert (INS : forall n g g', cf_insert up (stream_path "Image" i) n g = Ok g' -> cf_node up q g' = cf_node up q g).
  { intros n g g'. unfold cf_insert. destruct (cf_node up (removelast (stream_path "Image" i)) g) as [[|d]|]; try discriminate.
    destruct (valid_stream_name (last (stream_path "Image" i) [])); [|discriminate]. intros [= <-]. rewrite !cf_node_find by exact HQ. rewrite cf_find_app.
    destruct (cf_find up q g); [reflexivity|]. cbn [cf_find]. rewrite EQ. reflexivity. }
  destruct (cf_node up (stream_path "Image" i) f) as [[|d]|] eqn:EN.
  - injection E as <- <-. reflexivity.
  - destruct (ImageData_write v); injection E as <- <-; rewrite !SET; reflexivity.
  - destruct (cf_insert up (stream_path "Image" i) (Stream []) f) as [f1|] eqn:EI; [|injection E as <- <-; reflexivity].
    apply INS in EI. destruct (ImageData_write v); injection E as <- <-; rewrite ?SET; exact EI.
Qed.
Lemma node_dec (x y : option node) : x = y \/ x <> y.
Proof.
  destruct x as [[|a]|], y as [[|b]|]; try (right; discriminate); try (left; reflexivity).
  destruct (list_eq_dec Byte.byte_eq_dec a b) as [->|H]; [left; reflexivity|right; congruence].
Qed.
Lemma loop_other checked n : forall i conv f f' r q, webp_loop checked n i conv f = (f', r) -> q <> [] -> cf_node up q f' <> cf_node up q f ->
  exists k, (i <= k < i + N.of_nat n)%N /\ path_eqb up q (stream_path "Image" k) = true.
Proof.
  induction n as [|n IH]; intros i conv f f' r q H HQ HD; [injection H as <- <-; congruence|].
  assert (KEEP : forall conv f1, webp_loop checked n (i + 1) conv f1 = (f', r) -> (cf_node up q f1 <> cf_node up q f -> path_eqb up q (stream_path "Image" i) = true) ->
    exists k, (i <= k < i + N.of_nat (S n))%N /\ path_eqb up q (stream_path "Image" k) = true).
  { intros c f1 E HF. destruct (node_dec (cf_node up q f1) (cf_node up q f)) as [EN|EN].
    - rewrite <- EN in HD. destruct (IH _ _ _ _ _ _ E HQ HD) as (k & Hk & EK). exists k. split; [lia|exact EK].
    - exists i. split; [lia|apply HF, EN]. }
  cbn [Webp.webp_loop] in H. destruct (read_image up checked i f) as [v|e]; [|injection H as <- <-; congruence]. cbv zeta in H.
  assert (DONE : forall e : res (list ImageToWebpConversion), (f, e) = (f', r) -> exists k, (i <= k < i + N.of_nat (S n))%N /\ path_eqb up q (stream_path "Image" k) = true).
  { intros e E. injection E as <- <-. congruence. }
  assert (WRITE : forall v' c, (let '(f1, r0) := write_image up i v' f in
      match r0 with Ok _ => webp_loop checked n (i + 1) c f1 | Fail e => (f1, Fail e) end) = (f', r) ->
      exists k, (i <= k < i + N.of_nat (S n))%N /\ path_eqb up q (stream_path "Image" k) = true).
  { intros v' c E. destruct (write_image up i v' f) as [f1 r0] eqn:EW. destruct r0.
    - eapply KEEP; [exact E|]. intros HF. eapply write_image_other; eassumption.
    - injection E as <- <-. exists i. split; [lia|]. eapply write_image_other; eassumption. }
  assert (SKIP : forall c, webp_loop checked n (i + 1) c f = (f', r) -> exists k, (i <= k < i + N.of_nat (S n))%N /\ path_eqb up q (stream_path "Image" k) = true).
  { intros c E. eapply KEEP; [exact E|congruence]. }
  repeat match type of H with
  | (if ?x then _ else _) = _ => destruct x
  | match im_jpeg ?x with _ => _ end = _ => destruct (im_jpeg x)
  | match im_bits ?x with _ => _ end = _ => destruct (im_bits x)
  | match decode_png ?x with _ => _ end = _ => destruct (decode_png x) as [|[]]
  | match webp ?x with _ => _ end = _ => destruct (webp x)
  | match vpx_image_to_dynamic_image ?a ?b ?c ?d with _ => _ end = _ => destruct (vpx_image_to_dynamic_image a b c d)
  end; first [apply SKIP in H; exact H|apply DONE in H; exact H|apply WRITE in H; exact H].
Qed.
Lemma any_file checked f f' r q : images_to_webp checked f = (f', r) -> cf_node up q f' <> cf_node up q f ->
  exists g k, file_read_gamedata up checked f = Ok g /\ (Z.of_N k < w32_to_Z (gt_images_size (gd_tail g)))%Z /\
    path_eqb up q (stream_path "Image" k) = true.
Proof.
  unfold Webp.images_to_webp. destruct (file_read_gamedata up checked f) as [g|e]; [|intros [= <- <-]; congruence].
  intros H HD. destruct q as [|c q]; [exfalso; apply HD; reflexivity|].
  assert (NE : c :: q <> []) by discriminate. destruct (loop_other _ _ _ _ _ _ _ _ H NE HD) as (k & Hk & E). exists g, k. split; [reflexivity|]. split; [|exact E].
  unfold u32_nat in Hk. pose proof (w32_to_Z_range (gt_images_size (gd_tail g))). lia.
Qed.
End W.

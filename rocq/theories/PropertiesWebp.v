(** C62: converting the images of a table file to WebP, in place.

    In all statements [up] maps characters outside ASCII to upper case (for comparing stream names), [md2] is the hash function,
    [lower] turns a text into lower case, [lzw_decode] unpacks bitmaps, [decode_png] decodes PNG files and [webp] encodes WebP
    files: all are arbitrary. *)
From Verif Require Import Base Text Biff Quantize Common Enums Structs GameItem GameData Image Sound Cfb TableInfo Vpx Webp.
From Verif Require Import SpecBiff SpecStructs SpecImage SpecVpx SpecTable SpecWebp.
From Verif Require Import BaseFacts ImageProps TableFacts VpxProps WebpFacts.
From Verif Require Import PropertiesImage PropertiesVpx.

(** The file afterwards is exactly the file of the table with the converted images: nothing else changes, the message
    authentication code stays valid, and the report lists what became of the images in their order. *)
Theorem C62_convert : forall up md2 lower lzw_decode decode_png webp checked v images cs,
  table_fits up v -> Forall path_room (vpx_images v) -> files_fit webp ->
  images_after lower lzw_decode decode_png webp (vpx_images v) images cs ->
  exists f f',
    (forall checked', write_vpx up md2 checked' v [] = Ok f) /\
    images_to_webp up lower lzw_decode decode_png webp checked f = (f', Ok cs) /\
    (forall checked', write_vpx up md2 checked' (with_images images v) [] = Ok f') /\
    (forall checked', verify up md2 checked' f' = Ok VerifyOk).
Proof.
  intros up md2 lower lzw_decode decode_png webp checked v images cs Hv HR HW HA.
  assert (HI : Forall (fun i => image_fits i /\ one_kind i) images).
  { apply (all_fit up lower lzw_decode decode_png webp (vpx_images v) images cs); [apply Hv|exact HR|exact HW|exact HA]. }
  destruct (converted up lower lzw_decode decode_png webp md2 checked v images cs Hv HA HI) as (f & f' & W1 & W2 & E).
  exists f, f'. split; [exact W1|]. split; [exact E|]. split; [exact W2|].
  pose proof (fits_with up v images Hv HI (after_length _ _ _ _ _ _ _ HA)) as Hw.
  destruct (table_verifies up md2 _ Hw) as (g & b & s & a & Wg & Vg & _). specialize (W2 true). rewrite Wg in W2. injection W2 as <-. exact Vg.
Qed.
Print Assumptions C62_convert.

(** When the picture of an image cannot be converted the call fails; the images before it are converted in the file, and the file
    is still a valid table. *)
Theorem C62_stops : forall up md2 lower lzw_decode decode_png webp checked v before i after images cs e,
  table_fits up v -> Forall path_room (vpx_images v) -> files_fit webp -> vpx_images v = before ++ i :: after ->
  images_after lower lzw_decode decode_png webp before images cs -> refused lower lzw_decode decode_png webp i e ->
  exists f f',
    (forall checked', write_vpx up md2 checked' v [] = Ok f) /\
    images_to_webp up lower lzw_decode decode_png webp checked f = (f', Fail e) /\
    (forall checked', write_vpx up md2 checked' (with_images (images ++ i :: after) v) [] = Ok f') /\
    (forall checked', verify up md2 checked' f' = Ok VerifyOk).
Proof.
  intros up md2 lower lzw_decode decode_png webp checked v before i after images cs e Hv HR HW EV HA HRf. pose proof Hv as HF. destruct HF as (_ & _ & _ & _ & H5 & _).
  assert (HI : Forall (fun i => image_fits i /\ one_kind i) images).
  { rewrite EV in HR, H5. apply Forall_app in HR, H5. apply (all_fit up lower lzw_decode decode_png webp before images cs); [apply H5|apply HR|exact HW|exact HA]. }
  destruct (converted_until up lower lzw_decode decode_png webp md2 checked v before i after images cs e Hv EV HA HRf HI) as (f & f' & W1 & W2 & E).
  exists f, f'. split; [exact W1|]. split; [exact E|]. split; [exact W2|].
  assert (HI' : Forall (fun i => image_fits i /\ one_kind i) (images ++ i :: after)).
  { apply Forall_app. split; [exact HI|]. rewrite EV in H5. apply Forall_app in H5. apply H5. }
  assert (HL : List.length (images ++ i :: after) = List.length (vpx_images v)) by (rewrite EV, !app_length, (after_length _ _ _ _ _ _ _ HA); reflexivity).
  pose proof (fits_with up v _ Hv HI' HL) as Hw.
  destruct (table_verifies up md2 _ Hw) as (g & b & s & a & Wg & Vg & _). specialize (W2 true). rewrite Wg in W2. injection W2 as <-. exact Vg.
Qed.
Print Assumptions C62_stops.

(** There is no third possibility for an image. *)
Theorem C62_total : forall lower lzw_decode decode_png webp i,
  (exists i' cs, image_after lower lzw_decode decode_png webp i i' cs) \/ (exists e, refused lower lzw_decode decode_png webp i e).
Proof. exact after_total. Qed.
Print Assumptions C62_total.

(** When the WebP encoder is lossless the image shows the same pixels afterwards. *)
Theorem C62_same_picture : forall lower lzw_decode decode_png webp decode i i' cs width height px,
  (forall d picture, decode_png d = Ok picture -> decode d = Ok picture) ->
  (forall picture w, picture <> ImageOther -> webp picture = Ok w -> decode w = Ok picture) ->
  image_after lower lzw_decode decode_png webp i i' cs ->
  image_shows lzw_decode decode i width height px -> image_shows lzw_decode decode i' width height px.
Proof. exact same_picture. Qed.
Print Assumptions C62_same_picture.

(** Converting a second time leaves the file as it is, whatever the first time did. *)
Theorem C62_again : forall up md2 lower lzw_decode decode_png webp checked v images cs,
  table_fits up v -> Forall path_room (vpx_images v) -> files_fit webp ->
  lower (lit "webp") = lit "webp" -> (forall picture w, webp picture = Ok w -> decode_png w = Err) ->
  images_after lower lzw_decode decode_png webp (vpx_images v) images cs ->
  exists f f' cs',
    (forall checked', write_vpx up md2 checked' v [] = Ok f) /\
    images_to_webp up lower lzw_decode decode_png webp checked f = (f', Ok cs) /\
    images_to_webp up lower lzw_decode decode_png webp checked f' = (f', Ok cs') /\
    Forall (fun c => cv_old_extension c = lit "bmp") cs'.
Proof.
  intros up md2 lower lzw_decode decode_png webp checked v images cs Hv HR HW HL HP HA.
  assert (HI : Forall (fun i => image_fits i /\ one_kind i) images).
  { apply (all_fit up lower lzw_decode decode_png webp (vpx_images v) images cs); [apply Hv|exact HR|exact HW|exact HA]. }
  destruct (converted up lower lzw_decode decode_png webp md2 checked v images cs Hv HA HI) as (f & f' & W1 & W2 & E).
  pose proof (fits_with up v images Hv HI (after_length _ _ _ _ _ _ _ HA)) as Hw.
  destruct (all_again lower lzw_decode decode_png webp _ _ _ HL HP HA) as (cs' & HA' & HB).
  destruct (converted up lower lzw_decode decode_png webp md2 checked (with_images images v) images cs' Hw HA' HI) as (g & g' & V1 & V2 & E').
  exists f, f', cs'. split; [exact W1|]. split; [exact E|]. split; [|exact HB].
  specialize (W2 true). rewrite V1 in W2. injection W2 as <-. specialize (V1 true). specialize (V2 true).
  change (with_images images (with_images images v)) with (with_images images v) in V2. rewrite V1 in V2. injection V2 as <-. exact E'.
Qed.
Print Assumptions C62_again.

(** Any file at all, valid or not: whatever the outcome, only the streams of the images are touched. *)
Theorem C62_only_images : forall up lower lzw_decode decode_png webp checked f f' r q,
  images_to_webp up lower lzw_decode decode_png webp checked f = (f', r) -> cf_node up q f' <> cf_node up q f ->
  exists g k, file_read_gamedata up checked f = Ok g /\ Z.of_N k < w32_to_Z (gt_images_size (gd_tail g)) /\
    path_eqb up q [lit "GameStg"; lit "Image" ++ dec_text k] = true.
Proof. exact any_file. Qed.
Print Assumptions C62_only_images.

(** The claim that the report lists the images that were converted is false: an image with the extension "bmp" that has no bitmap
    is reported, and the file is the same as before. *)
Definition no_picture (name : rstring) : ImageData :=
  mkImageData name None (name ++ lit ".bmp") (Z_to_w32 8) (Z_to_w32 8) None (Z_to_w32 0) None None None None None.
Lemma no_picture_fits : image_fits (no_picture (lit "plain")) /\ one_kind (no_picture (lit "plain")).
Proof. split; [apply decide_fits; vm_compute; reflexivity|left; reflexivity]. Qed.
Theorem C62_report_refuted : forall up md2 lower lzw_decode decode_png webp checked, files_fit webp -> lower (lit "bmp") = lit "bmp" ->
  exists v f, table_fits up v /\ (forall checked', write_vpx up md2 checked' v [] = Ok f) /\
    images_to_webp up lower lzw_decode decode_png webp checked f = (f, Ok [mkConversion (lit "plain") (lit "bmp") (lit "webp")]).
Proof.
  intros up md2 lower lzw_decode decode_png webp checked HW HL. set (v := with_images [no_picture (lit "plain")] example_v).
  assert (HI : Forall (fun i => image_fits i /\ one_kind i) [no_picture (lit "plain")]) by (constructor; [exact no_picture_fits|constructor]).
  assert (Hv : table_fits up v) by (apply fits_with; [apply example_v_fits|exact HI|reflexivity]).
  assert (HA : images_after lower lzw_decode decode_png webp (vpx_images v) [no_picture (lit "plain")] [mkConversion (lit "plain") (lit "bmp") (lit "webp")]).
  { apply (After_cons _ _ _ _ _ _ [mkConversion (lit "plain") (lit "bmp") (lit "webp")] [] [] []); [|constructor].
    apply (After_bmp_none lower lzw_decode decode_png webp (no_picture (lit "plain"))); [|reflexivity]. exists (lit "bmp"). split; [|exact HL].
    split; [intros H; repeat (destruct H as [H|H]; [discriminate|]); destruct H|]. right. exists (lit "plain"). reflexivity. }
  destruct (converted up lower lzw_decode decode_png webp md2 checked v _ _ Hv HA HI) as (f & f' & W1 & W2 & E).
  exists v, f. split; [exact Hv|]. split; [exact W1|]. rewrite E. f_equal.
  specialize (W1 true). specialize (W2 true). change (with_images [no_picture (lit "plain")] v) with v in W2. rewrite W1 in W2. injection W2 as <-. reflexivity.
Qed.
Print Assumptions C62_report_refuted.

(** A table with a picture, with codecs for pictures of one pixel: "A" begins a PNG file, "R" a WebP file. *)
Definition toy_decode_png (d : bytes) : res dyn_image := match d with x41 :: d' => Ok (ImageRgba8 1 1 (firstn 4 d')) | _ => Err end.
Definition toy_webp (p : dyn_image) : res bytes :=
  match p with ImageRgba8 1 1 d => if zlen d =? 4 then Ok (x52 :: d) else Err | _ => Err end.
Definition toy_decode (d : bytes) : res dyn_image := match d with x52 :: d' => Ok (ImageRgba8 1 1 d') | _ => toy_decode_png d end.
Lemma toy_webp_some picture w : toy_webp picture = Ok w -> exists d, picture = ImageRgba8 1 1 d /\ w = x52 :: d /\ zlen d = 4.
Proof.
  destruct picture as [[|[]|] [|[]|] d|a b d|]; try discriminate. cbn [toy_webp]. destruct (zlen d =? 4) eqn:E; [|discriminate].
  intros [= <-]. exists d. apply Z.eqb_eq in E. auto.
Qed.
Definition example_ball_webp : ImageData :=
  mkImageData (lit "ball") None (lit "C:\img\ball.webp") (Z_to_w32 640) (Z_to_w32 480) (Some (Z_to_w32 0)) (Z_to_w32 3212836864) (Some true) None
    (Some (mkImageDataJpeg (lit "C:\img\ball.webp") (lit "ball") (Some (lit "BALL")) (x52 :: firstn 4 (tl (ij_data example_jpeg))))) None (Some (repeat x7f 16)).
Lemma proper_png : proper_extension (lit "C:\img\ball.png") (lit "C:\img\ball") (lit "png").
Proof. split; [reflexivity|]. split; [discriminate|]. repeat (constructor; [right; right; split; vm_compute; discriminate|]). constructor. Qed.
Example C62_example : forall up,
  table_fits up example_v /\ Forall path_room (vpx_images example_v) /\ files_fit toy_webp /\
  images_after ascii_lower_case Ok toy_decode_png toy_webp (vpx_images example_v) [example_ball_webp]
    [mkConversion (lit "ball") (lit "png") (lit "webp")] /\
  (forall d picture, toy_decode_png d = Ok picture -> toy_decode d = Ok picture) /\
  (forall picture w, picture <> ImageOther -> toy_webp picture = Ok w -> toy_decode w = Ok picture) /\
  (forall picture w, toy_webp picture = Ok w -> toy_decode_png w = Err) /\
  ascii_lower_case (lit "webp") = lit "webp" /\ ascii_lower_case (lit "bmp") = lit "bmp" /\
  exists px, image_shows Ok toy_decode example_ball_webp 1 1 px /\ Forall (fun i => image_shows Ok toy_decode i 1 1 px) (vpx_images example_v).
Proof.
  intros up. split; [apply example_v_fits|]. split; [repeat constructor; vm_compute; reflexivity|]. split; [|split; [|split; [|split; [|split; [|split; [|split]]]]]].
  - intros p w H. apply toy_webp_some in H. destruct H as (d & -> & -> & HZ). unfold data_fits, size_fits. rewrite zlen_cons, HZ. reflexivity.
  - apply (After_cons _ _ _ _ _ _ [mkConversion (lit "ball") (lit "png") (lit "webp")] [] [] []); [|constructor].
    apply (After_png ascii_lower_case Ok toy_decode_png toy_webp (example_image None (Some example_jpeg)) example_jpeg
             (ImageRgba8 1 1 (firstn 4 (tl (ij_data example_jpeg)))) _ (lit "C:\img\ball.webp") (lit "C:\img\ball.webp")).
    + exists (lit "png"). split; [|reflexivity]. split; [intros H; repeat (destruct H as [H|H]; [discriminate|]); destruct H|]. right. exists (lit "C:\img\ball"). reflexivity.
    + reflexivity.
    + reflexivity.
    + reflexivity.
    + left. exists (lit "C:\img\ball"), (lit "png"). split; [exact proper_png|reflexivity].
    + left. exists (lit "C:\img\ball"), (lit "png"). split; [exact proper_png|reflexivity].
  - intros d p H. destruct d as [|c d]; [discriminate|]. destruct c; try discriminate. exact H.
  - intros p w _ H. apply toy_webp_some in H. destruct H as (d & -> & -> & _). reflexivity.
  - intros p w H. apply toy_webp_some in H. destruct H as (d & -> & -> & _). reflexivity.
  - reflexivity.
  - reflexivity.
  - exists [Px x4c x54 x56 x05]. split.
    + eexists. split; [reflexivity|]. split; [reflexivity|]. left. reflexivity.
    + constructor; [|constructor]. eexists. split; [reflexivity|]. split; [reflexivity|]. left. reflexivity.
Qed.
(** A picture the encoder refuses. *)
Example C62_refused_example : refused ascii_lower_case Ok toy_decode_png (fun _ => Err) (example_image None (Some example_jpeg)) ErrF.
Proof.
  left. exists example_jpeg. split; [|split; [reflexivity|]].
  - exists (lit "png"). split; [|reflexivity]. split; [intros H; repeat (destruct H as [H|H]; [discriminate|]); destruct H|]. right. exists (lit "C:\img\ball"). reflexivity.
  - right. eexists. split; reflexivity.
Qed.

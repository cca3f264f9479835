(** C02 (images), C10, C24, C25, C46: images, bitmap blocks, pixels and file extensions. *)
From Verif Require Import Base Text Biff Quantize Common Enums ItemBase Structs Image.
From Verif Require Import BaseFacts ImageFacts SpecBiff SpecItems RecordFacts SpecStructs StructsProps SpecImage ImageProps.

(** * C02: reading any byte string ends *)
Theorem C02_image_read_terminates : forall checked input, ImageData_read checked input <> OutOfFuel.
Proof. exact image_terminates. Qed.
Print Assumptions C02_image_read_terminates.

(** * C10: image records *)
(** An image is stored as its records around the picture data, and is read back equal; also with unknown records
    anywhere except directly behind a bitmap (its end is found by searching the next record). *)
Theorem C10_image_round_trip : forall v, image_fits v -> one_kind v ->
  ImageData_write v = Ok (image_bytes (image_head v) (picture_bytes (im_bits v) (option_map jpeg_records (im_jpeg v))) (image_tail v)) /\
  forall checked hs js ts,
    Inserted (map fst ImageData_arms) (image_head v) hs -> jpeg_inserted (im_jpeg v) js ->
    Inserted (map fst ImageData_arms) (image_tail v) ts ->
    (im_bits v = None \/ hd_error ts = hd_error (image_tail v)) ->
    ImageData_read checked (image_bytes hs (picture_bytes (im_bits v) js) ts) = Ok v.
Proof. exact image_stored. Qed.
Print Assumptions C10_image_round_trip.
Definition example_jpeg : ImageDataJpeg :=
  mkImageDataJpeg (lit "C:\img\ball.png") (lit "ball") (Some (lit "BALL")) (list_byte_of_string "ALTV" ++ stream_bytes [("NAME"%string, [x01])]).
Definition example_image (bits : option bytes) (jpeg : option ImageDataJpeg) : ImageData :=
  mkImageData (lit "ball") None (lit "C:\img\ball.png") (Z_to_w32 640) (Z_to_w32 480) (Some (Z_to_w32 0)) (Z_to_w32 3212836864)
    (Some true) None jpeg bits (Some (repeat x7f 16)).
Definition decide_fits v : Image_fields_ok v = true -> image_fits v := proj1 (image_fits_iff v).
(** File data may contain anything; a bitmap that contains "ALT" and record-like bytes. *)
Example C10_example_file : image_fits (example_image None (Some example_jpeg)) /\ one_kind (example_image None (Some example_jpeg)).
Proof. split; [apply decide_fits; vm_compute; reflexivity|left; reflexivity]. Qed.
Example C10_example_bitmap : let v := example_image (Some (list_byte_of_string "xALTxENDB" ++ stream_bytes [])) None in
  image_fits v /\ one_kind v /\
  hd_error (image_tail v ++ [("NEW "%string, [x01])]) = hd_error (image_tail v) /\
  Inserted (map fst ImageData_arms) (image_tail v) (image_tail v ++ [("NEW "%string, [x01])]).
Proof.
  cbv zeta. split; [apply decide_fits; vm_compute; reflexivity|]. split; [right; reflexivity|]. split; [reflexivity|].
  cbn [image_tail opt_record example_image im_md5_hash im_is_opaque im_is_signed app]. do 3 apply Inserted_same. apply Inserted_extra; [| |constructor].
  - repeat split; cbn; try lia; try discriminate. intros H. repeat destruct H as [H|H]; try discriminate; exact H.
  - vm_compute. intros H. repeat destruct H as [H|H]; try discriminate; exact H.
Qed.
(** In particular what was written is read back. *)
Theorem C10_image_written_is_read : forall v, image_fits v -> one_kind v ->
  exists b, ImageData_write v = Ok b /\ forall checked, ImageData_read checked b = Ok v.
Proof. exact image_roundtrip. Qed.
Print Assumptions C10_image_written_is_read.
(** An image read from any file can be saved without loss when it has one kind of picture data. *)
Theorem C10_image_resave : forall checked input v,
  size_fits (zlen input) -> ImageData_read checked input = Ok v -> one_kind v ->
  exists output, ImageData_write v = Ok output /\ forall checked', ImageData_read checked' output = Ok v.
Proof. exact image_resave. Qed.
Print Assumptions C10_image_resave.
Example C10_resave_example : ImageData_read true
    (image_bytes [("NAME"%string, string_payload (lit "a"))] (picture_bytes (Some [x01; x02]) None) [("ALTV"%string, le32 5); ("WDTH"%string, le32 2)])
  = Ok (mkImageData (lit "a") None [] (Z_to_w32 2) (Z_to_w32 0) None (Z_to_w32 5) None None None (Some [x01; x02]) None).
Proof. vm_compute. reflexivity. Qed.
(** Without these two conditions data is lost.  A bitmap that contains the marker is cut there: *)
Theorem C10_bitmap_with_marker_refuted : exists v b, ImageData_write v = Ok b /\ im_jpeg v = None /\
  forall checked v', ImageData_read checked b = Ok v' -> im_bits v' <> im_bits v.
Proof.
  pose (v := example_image (Some (list_byte_of_string "01234567ALTV")) None).
  pose (o := match ImageData_write v with Ok b => b | _ => [] end).
  exists v, o. split; [vm_compute; reflexivity|]. split; [reflexivity|].
  intros [] v' E; vm_compute in E; try discriminate; injection E as <-; vm_compute; discriminate.
Qed.
Print Assumptions C10_bitmap_with_marker_refuted.
(** An image with both kinds loses its file data to the bitmap: *)
Theorem C10_both_kinds_merge : forall v b j, image_fits v -> im_bits v = Some b -> im_jpeg v = Some j ->
  ~ contains_marker (picture_bytes (Some b) (Some (jpeg_records j))) ->
  exists output, ImageData_write v = Ok output /\
    forall checked, ImageData_read checked output
      = Ok (set_im_jpeg None (set_im_bits (Some (b ++ record_bytes ("JPEG"%string, []) ++ stream_bytes (jpeg_records j))) v)).
Proof. exact image_two_kinds. Qed.
Print Assumptions C10_both_kinds_merge.
(** and such an image can come out of a file, so that saving a loaded table is not lossless for it: *)
Theorem C10_image_resave_refuted : exists input v output, ImageData_read true input = Ok v /\ ImageData_write v = Ok output /\
  ImageData_read true output <> Ok v.
Proof.
  pose (i := image_bytes [] (picture_bytes (Some [x01]) None) [("ALTV"%string, le32 5)]).
  pose (j := firstn (List.length i - 8) i ++ picture_bytes None (Some (jpeg_records (mkImageDataJpeg [] [] None [x07]))) ++ stream_bytes []).
  pose (v := match ImageData_read true j with Ok v => v | _ => ImageData_default end).
  exists j, v, (match ImageData_write v with Ok b => b | _ => [] end).
  split; [vm_compute; reflexivity|]. split; [vm_compute; reflexivity|]. vm_compute. discriminate.
Qed.
Print Assumptions C10_image_resave_refuted.

(** * C24: bitmap blocks *)
(** For every data and block length the result is a sequence of non-empty blocks, all but the last of full length, whose
    contents are the data. *)
Theorem C24_blocks : forall checked d max, 1 <= max <= 255 ->
  exists blocks, to_blocks checked d max = Ok (framed blocks) /\ List.concat blocks = d /\
    Forall (fun b : bytes => 1 <= zlen b <= max) blocks /\ Forall (fun b : bytes => zlen b = max) (removelast blocks).
Proof. exact to_blocks_spec. Qed.
Print Assumptions C24_blocks.
(** Joining accepts exactly the sequences of blocks and returns their contents; anything else aborts. *)
Theorem C24_join : forall d,
  (forall r, from_blocks d = Ok r <-> exists blocks, d = framed blocks /\ r = List.concat blocks /\ Forall (fun b : bytes => zlen b <= 255) blocks) /\
  ((exists r, from_blocks d = Ok r) \/ from_blocks d = Panic).
Proof.
  intros d. split; [|apply from_blocks_total]. intros r. split; [apply from_blocks_inv|].
  intros (bs & -> & -> & H). apply from_blocks_framed, H.
Qed.
Print Assumptions C24_join.
Theorem C24_blocks_round_trip : forall checked d max, 1 <= max <= 255 ->
  exists b, to_blocks checked d max = Ok b /\ from_blocks b = Ok d.
Proof. exact blocks_roundtrip. Qed.
Print Assumptions C24_blocks_round_trip.
Example C24_example : to_blocks true (list_byte_of_string "0123456789") 4 = Ok (framed (map list_byte_of_string ["0123"; "4567"; "89"]%string))
  /\ from_blocks [x02; x00] = Panic.
Proof. vm_compute. split; reflexivity. Qed.

(** * C25: pixel order and bitmap files *)
Theorem C25_swap_exchanges_red_and_blue : forall l, swap_red_and_blue (pixels_bytes l) = pixels_bytes (map swap_px l).
Proof. exact swap_pixels. Qed.
Print Assumptions C25_swap_exchanges_red_and_blue.
Theorem C25_swap_twice : forall d, zlen d mod 4 = 0 -> swap_red_and_blue (swap_red_and_blue d) = d.
Proof. intros d H. destruct (whole_pixels d H) as [l ->]. apply swap_swap_pixels. Qed.
Print Assumptions C25_swap_twice.
(** An incomplete pixel at the end is dropped. *)
Theorem C25_swap_incomplete_pixel : forall l r, zlen r < 4 ->
  swap_red_and_blue (pixels_bytes l ++ r) = swap_red_and_blue (pixels_bytes l).
Proof. exact swap_ignores_rest. Qed.
Print Assumptions C25_swap_incomplete_pixel.
(** Exporting a stored bitmap to a file and importing the file gives the dimensions and a blob of the same pixels, for
    every pixel buffer of the right size, provided that the file codec and the compressor restore this picture. *)
Theorem C25_bitmap_export_import : forall lzw_encode lzw_decode bmp_encode load checked d px width height,
  0 <= width -> 0 <= height -> zlen px = 4 * width * height ->
  from_lzw_blocks lzw_decode d = Ok px ->
  (forall img, vpx_image_to_dynamic_image lzw_decode d width height = Ok img -> exists file, bmp_encode img = Ok file /\ load file = Ok img) ->
  (exists c, lzw_encode px = Ok c /\ lzw_decode c = Ok px) ->
  exists file d', write_image_bmp lzw_decode bmp_encode d width height = Ok file /\
    read_image_bmp lzw_encode load checked file = Ok (width, height, d') /\ from_lzw_blocks lzw_decode d' = Ok px.
Proof. exact bitmap_export_import. Qed.
Print Assumptions C25_bitmap_export_import.
(** A codec for pictures of one pixel that is enough for the hypotheses; one opaque and one translucent pixel. *)
Definition toy_encode (i : dyn_image) : res bytes :=
  match i with ImageRgba8 _ _ d => Ok (x01 :: d) | ImageRgb8 _ _ d => Ok (x00 :: d) | ImageOther => Err end.
Definition toy_load (f : bytes) : res dyn_image :=
  match f with x01 :: d => Ok (ImageRgba8 1 1 d) | x00 :: d => Ok (ImageRgb8 1 1 d) | _ => Err end.
Example C25_example : forall a, a = xff \/ a = x80 ->
  let px := [x01; x02; x03; a] in
  from_lzw_blocks Ok (framed [px]) = Ok px /\
  (forall img, vpx_image_to_dynamic_image Ok (framed [px]) 1 1 = Ok img -> exists file, toy_encode img = Ok file /\ toy_load file = Ok img).
Proof.
  intros a [-> | ->]; (split; [vm_compute; reflexivity|]); intros img E; vm_compute in E; injection E as <-; eexists; split; reflexivity.
Qed.
(** Transparency: an explicit flag wins; otherwise a bitmap is transparent when some pixel is not fully opaque. *)
Theorem C25_bitmap_transparency : forall lzw_decode decoded v b l,
  im_is_opaque v = None -> im_jpeg v = None -> im_bits v = Some b -> from_lzw_blocks lzw_decode b = Ok (pixels_bytes l) ->
  exists t, image_has_transparency lzw_decode decoded v = Ok t /\ (t = true <-> Exists (fun p => ch3 p <> xff) l).
Proof.
  intros lzw decoded v b l H1 H2 H3 H4. unfold image_has_transparency. rewrite H1, H2, H3, H4. cbn [rbind].
  eexists. split; [reflexivity|apply uses_alpha_pixels].
Qed.
Print Assumptions C25_bitmap_transparency.
Theorem C25_opaque_flag_wins : forall lzw_decode decoded v o, im_is_opaque v = Some o ->
  image_has_transparency lzw_decode decoded v = Ok (negb o).
Proof. intros lzw decoded v o H. unfold image_has_transparency. rewrite H. reflexivity. Qed.
Print Assumptions C25_opaque_flag_wins.

(** * C46: changing the extension of an image *)
(** A path that ends in a dot and ASCII letters or digits gets the new extension there, the rest is kept; any other path is
    unchanged, also the path of the file data is treated like that, and nothing else changes. *)
Theorem C46_change_extension : forall ext v,
  let changed (p p' : rstring) :=
    (exists q e, p = q ++ dot :: e /\ e <> [] /\ Forall (fun c => is_ascii_alnum c = true) e /\ p' = q ++ dot :: ext) \/
    ((forall q e, p = q ++ dot :: e -> e <> [] -> Forall (fun c => is_ascii_alnum c = true) e -> False) /\ p' = p) in
  let v' := ImageData_change_extension ext v in
  changed (im_path v) (im_path v') /\
  match im_jpeg v, im_jpeg v' with
  | Some j, Some j' => changed (ij_path j) (ij_path j') /\ ij_name j' = ij_name j /\ ij_internal_name j' = ij_internal_name j /\ ij_data j' = ij_data j
  | None, None => True
  | _, _ => False
  end /\
  set_im_jpeg (im_jpeg v) (set_im_path (im_path v) v') = v.
Proof.
  intros ext v changed v'.
  assert (HC : forall p, changed p (replace_ext ext p)).
  { intros p. apply replace_ext_changed. }
  split; [apply HC|]. split.
  - unfold v', ImageData_change_extension. destruct v as [n i p w h l a o s [j|] b m]; cbn; [|exact I]. repeat split. apply HC.
  - destruct v as [n i p w h l a o s [j|] b m]; reflexivity.
Qed.
Print Assumptions C46_change_extension.
(** The extension of the result is the new one. *)
Theorem C46_extension_afterwards : forall ext v q e, ~ In dot ext ->
  im_path v = q ++ dot :: e -> e <> [] -> Forall (fun c => is_ascii_alnum c = true) e ->
  ImageData_ext v = e /\ ImageData_ext (ImageData_change_extension ext v) = ext.
Proof.
  intros ext v q e Hx E He Ha. assert (Ha' : forallb is_ascii_alnum e = true) by (apply forallb_forall; apply Forall_forall; exact Ha).
  unfold ImageData_ext. change (im_path (ImageData_change_extension ext v)) with (replace_ext ext (im_path v)). rewrite E. split.
  - apply path_ext_split, alnum_no_dot, Ha'.
  - rewrite replace_ext_split by assumption. apply path_ext_split, Hx.
Qed.
Print Assumptions C46_extension_afterwards.
Example C46_example : im_path (ImageData_change_extension (lit "webp") (example_image None (Some example_jpeg))) = lit "C:\img\ball.webp" /\
  replace_ext (lit "webp") (lit "a.tar gz") = lit "a.tar gz" /\ replace_ext (lit "webp") (lit "a.b.PNG") = lit "a.b.webp" /\
  path_ext (lit "noext") = lit "noext".
Proof. vm_compute. repeat split. Qed.

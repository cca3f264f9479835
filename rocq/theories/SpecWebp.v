(** What converting the images of a table file to WebP should do: the specification used by the statements of C62. *)
From Verif Require Import Base Text Biff Common Structs Image Cfb Vpx Webp SpecBiff SpecStructs SpecImage.

(** ** File names *)
(** The extension of a path: what follows the last dot, or everything when there is no dot. *)
Definition extension (p e : rstring) : Prop :=
  ~ In 46%N e /\ (p = e \/ exists stem, p = stem ++ lit "." ++ e).
(** Letters and digits. *)
Definition letter_or_digit (c : N) : Prop := (48 <= c <= 57 \/ 65 <= c <= 90 \/ 97 <= c <= 122)%N.
Definition proper_extension (p stem e : rstring) : Prop := p = stem ++ lit "." ++ e /\ e <> [] /\ Forall letter_or_digit e.
(** The path of the converted image: a proper extension is replaced, any other path is kept. *)
Definition renamed (p p' : rstring) : Prop :=
  (exists stem e, proper_extension p stem e /\ p' = stem ++ lit ".webp") \/
  ((forall stem e, ~ proper_extension p stem e) /\ p' = p).

(** ** Images *)
Section Codecs.
Variable lower : rstring -> rstring.
Variable lzw_decode : bytes -> res bytes.
Variable decode_png : bytes -> res dyn_image.
Variable webp : dyn_image -> res bytes.
(** The image [i] with another path and its picture in an embedded file. *)
Definition with_file (i : ImageData) (path : rstring) (j : ImageDataJpeg) (bits : option bytes) : ImageData :=
  mkImageData (im_name i) (im_internal_name i) path (im_width i) (im_height i) (im_link i) (im_alpha_test_value i) (im_is_opaque i)
    (im_is_signed i) (Some j) bits (im_md5_hash i).
Definition named (t : string) (i : ImageData) : Prop := exists e, extension (im_path i) e /\ lower e = lit t.
Definition reported (t : string) (i : ImageData) : ImageToWebpConversion := mkConversion (im_name i) (lit t) (lit "webp").
(** What becomes of the image [i]: the image that is stored afterwards, and what is reported. *)
Inductive image_after (i : ImageData) : ImageData -> list ImageToWebpConversion -> Prop :=
| After_other : ~ named "png" i -> ~ named "bmp" i -> image_after i i []
| After_png_none : named "png" i -> im_jpeg i = None -> image_after i i []
| After_png_broken j : named "png" i -> im_jpeg i = Some j -> decode_png (ij_data j) = Err -> image_after i i []
| After_png j picture w path file_path :
    named "png" i -> im_jpeg i = Some j -> decode_png (ij_data j) = Ok picture -> webp picture = Ok w ->
    renamed (im_path i) path -> renamed (ij_path j) file_path ->
    image_after i (with_file i path (mkImageDataJpeg file_path (ij_name j) (ij_internal_name j) w) (im_bits i)) [reported "png" i]
| After_bmp_none : named "bmp" i -> im_bits i = None -> image_after i i [reported "bmp" i]
| After_bmp b picture w path :
    named "bmp" i -> im_bits i = Some b ->
    vpx_image_to_dynamic_image lzw_decode b (w32_to_Z (im_width i)) (w32_to_Z (im_height i)) = Ok picture -> webp picture = Ok w ->
    renamed (im_path i) path ->
    image_after i (with_file i path (mkImageDataJpeg path (im_name i) None w) None) [reported "bmp" i].
(** Images, what becomes of them, and the report. *)
Inductive images_after : list ImageData -> list ImageData -> list ImageToWebpConversion -> Prop :=
| After_nil : images_after [] [] []
| After_cons i i' cs is is' cs' : image_after i i' cs -> images_after is is' cs' -> images_after (i :: is) (i' :: is') (cs ++ cs').
(** The picture of [i] stops the conversion: the file in it makes the decoder panic, the bitmap is damaged, or the encoder refuses
    the picture. *)
Definition refused (i : ImageData) (e : failure) : Prop :=
  (exists j, named "png" i /\ im_jpeg i = Some j /\
     (decode_png (ij_data j) = Fail e /\ e <> ErrF \/ exists picture, decode_png (ij_data j) = Ok picture /\ webp picture = Fail e)) \/
  (exists b, named "bmp" i /\ im_bits i = Some b /\
     (vpx_image_to_dynamic_image lzw_decode b (w32_to_Z (im_width i)) (w32_to_Z (im_height i)) = Fail e \/
      exists picture, vpx_image_to_dynamic_image lzw_decode b (w32_to_Z (im_width i)) (w32_to_Z (im_height i)) = Ok picture /\ webp picture = Fail e)).
(** There is room for the new extension in the paths of the image, and files of the encoder can be stored. *)
Definition path_room (i : ImageData) : Prop :=
  size_fits (zlen (im_path i) + 3) /\ option_all (fun j => size_fits (zlen (ij_path j) + 3)) (im_jpeg i).
Definition files_fit : Prop := forall picture w, webp picture = Ok w -> data_fits w.

(** ** Pictures *)
(** The pixels of a decoded picture, with alpha 255 for a picture without alpha. *)
Definition opaque (c : byte * byte * byte) : pixel := let '(r, g, b) := c in Px r g b xff.
Definition picture_shows (img : dyn_image) (width height : Z) (px : list pixel) : Prop :=
  zlen px = width * height /\
  (img = ImageRgba8 width height (pixels_bytes px) \/
   exists colours, px = map opaque colours /\
     img = ImageRgb8 width height (flat_map (fun c => let '(r, g, b) := c in [r; g; b]) colours)).
(** What an image shows: the pixels of its bitmap, stored blue first, or of its embedded file. *)
Variable decode : bytes -> res dyn_image.
Definition image_shows (i : ImageData) (width height : Z) (px : list pixel) : Prop :=
  match im_jpeg i, im_bits i with
  | Some j, None => exists img, decode (ij_data j) = Ok img /\ picture_shows img width height px
  | None, Some b => w32_to_Z (im_width i) = width /\ w32_to_Z (im_height i) = height /\ zlen px = width * height /\
                    exists d, from_blocks b = Ok d /\ lzw_decode d = Ok (pixels_bytes (map swap_px px))
  | _, _ => False
  end.
End Codecs.

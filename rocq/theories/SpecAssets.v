(** What extracting sounds, images and fonts into files must guarantee. *)
From Verif Require Import Base Quantize Structs Image Sound SpecSound Cfb.

(** ** Names *)
(** Lower-casing a name that ends in "_dedup" and a number changes only what stands before them. *)
Definition keeps_dedup (lower : rstring -> rstring) : Prop :=
  forall s, exists p, forall k, lower (s ++ lit "_dedup" ++ dec_text k) = p ++ lit "_dedup" ++ dec_text k.
(** Names with different lower-case forms denote different files, whatever their extensions. *)
Definition tells_apart (key lower : rstring -> rstring) : Prop :=
  forall a b e f, ~ In 46%N e -> ~ In 46%N f -> key (a ++ lit "." ++ e) = key (b ++ lit "." ++ f) -> lower a = lower b.
(** Names that are valid in a file system and are not like those made up for duplicates *)
Definition ordinary_name (sanitize lower : rstring -> rstring) (n : rstring) : Prop :=
  sanitize n = n /\ forall p k, lower n <> p ++ lit "_dedup" ++ dec_text k.

(** ** Sounds *)
(** Sounds whose WAV header can be computed from the samples' format (see C12) *)
Definition extractable_sound (s : SoundData) : Prop :=
  rate_fits (so_wave_form s) /\ zlen (so_data s) < 2 ^ 32 - 36 /\
  w32_to_Z (wf_avg_bytes_per_sec (so_wave_form s)) = byte_rate (so_wave_form s) /\
  (w16_to_Z (wf_format_tag (so_wave_form s)) = 1 -> w16_to_Z (wf_cb_size (so_wave_form s)) = 0) /\
  (is_wav (so_path s) = false -> so_wave_form s = WaveForm_new).

(** ** Images *)
Section Images.
Variable lzw_encode lzw_decode : bytes -> res bytes.
Variable bmp_encode : dyn_image -> res bytes.
Variable load_from_memory : bytes -> res dyn_image.
(** What follows the last dot of a path (all of it if there is none) *)
Definition extension_is (p e : rstring) : Prop := lower_case (path_ext p) = e.
(** A bitmap that the compressor and the codec for .bmp files restore (see C25) *)
Definition codecs_restore (b : bytes) (width height : Z) : Prop :=
  exists px, zlen px = 4 * width * height /\ from_lzw_blocks lzw_decode b = Ok px /\
    (forall img, vpx_image_to_dynamic_image lzw_decode b width height = Ok img ->
                 exists file, bmp_encode img = Ok file /\ load_from_memory file = Ok img) /\
    (exists c, lzw_encode px = Ok c /\ lzw_decode c = Ok px).
(** Links have no picture, files ending in .bmp are bitmaps, all others are encoded files. *)
Definition extractable_image (v : ImageData) : Prop :=
  match im_md5_hash v with Some h => zlen h = 16 | None => True end /\
  (im_link v = Some (Z_to_w32 1) -> im_jpeg v = None /\ im_bits v = None) /\
  (im_link v <> Some (Z_to_w32 1) ->
     (extension_is (im_path v) (lit "bmp") -> im_jpeg v = None /\
        exists b, im_bits v = Some b /\ codecs_restore b (w32_to_Z (im_width v)) (w32_to_Z (im_height v))) /\
     (~ extension_is (im_path v) (lit "bmp") -> im_jpeg v <> None /\ im_bits v = None)).
(** Two images are the same if they are equal up to the compression of their pixels. *)
Definition same_image (v w : ImageData) : Prop :=
  set_im_bits None v = set_im_bits None w /\
  (im_bits v = im_bits w \/
   exists b b' px, im_bits v = Some b /\ im_bits w = Some b' /\ from_lzw_blocks lzw_decode b = Ok px /\ from_lzw_blocks lzw_decode b' = Ok px).
End Images.

(** The extracted sounds, images and fonts: src/vpx/expanded/sounds.rs, images.rs and fonts.rs.

    The index files (sounds.json, images.json, fonts.json) are lists of records here, their text is the subject of Json.v.  A directory
    maps files to their contents; [key] tells which file a name denotes (names that differ in case may denote the same file). *)
From Verif Require Import Base Text Quantize Enums Structs Image Sound JsonFloat Cfb FileSystem ExpandedItems.

(** image.rs:183-217 *)
Record ImageDataJson : Type := mkImageDataJson {
  aj_name : rstring; aj_internal_name : option rstring; aj_path : rstring; aj_width : option u32; aj_height : option u32;
  aj_link : option u32; aj_alpha_test_value : option f32; aj_is_opaque : option bool; aj_is_signed : option bool;
  aj_jpeg_name : option rstring; aj_jpeg_internal_name : option rstring; aj_jpeg_path : option rstring;
  aj_name_dedup : option rstring; aj_md5_hash : option rstring }.
(** image.rs:154: -1.0 *)
Definition ALPHA_TEST_VALUE_DEFAULT : f32 := Z_to_w32 0xbf800000.
Definition unless_equal (x y : rstring) : option rstring := if rstring_eqb x y then None else Some x.
(** image.rs:220-268 [from_image_data]; only -1.0 itself compares equal to -1.0 *)
Definition ImageDataJson_of (v : ImageData) : ImageDataJson :=
  let '(jpeg_name, jpeg_path, jpeg_internal_name) :=
    match im_jpeg v with
    | Some j => (unless_equal (ij_name j) (im_name v), unless_equal (ij_path j) (im_path v), ij_internal_name j)
    | None => (None, None, None)
    end in
  mkImageDataJson (im_name v) (im_internal_name v) (im_path v) None None (im_link v)
    (if w32_eqb (im_alpha_test_value v) ALPHA_TEST_VALUE_DEFAULT then None else Some (im_alpha_test_value v))
    (im_is_opaque v) (im_is_signed v) jpeg_name jpeg_internal_name jpeg_path None
    (match im_md5_hash v with Some h => Some (hex_encode h) | None => None end).
(** image.rs:317-319 [is_link], 321-327 [ext], 329-331 [is_bmp] *)
Definition aj_is_link (j : ImageDataJson) : bool := match aj_link j with Some l => w32_eqb l (Z_to_w32 1) | None => false end.
Definition aj_ext (j : ImageDataJson) : rstring := path_ext (aj_path j).
Definition aj_is_bmp (j : ImageDataJson) : bool := eq_ignore_ascii_case (aj_ext j) (lit "bmp").
Definition or_else {A} (o : option A) (d : A) : A := match o with Some x => x | None => d end.
(** image.rs:270-315 [to_image_data] *)
Definition ImageDataJson_to (j : ImageDataJson) (width height : u32) (bits : option bytes) : ImageData :=
  let jpeg := if negb (aj_is_bmp j) && negb (aj_is_link j)
              then Some (mkImageDataJpeg (or_else (aj_jpeg_path j) (aj_path j)) (or_else (aj_jpeg_name j) (aj_name j))
                           (aj_jpeg_internal_name j) [])
              else None in
  let md5_hash := match aj_md5_hash j with
                  | Some h => match hex_decode h with Ok d => if zlen d =? 16 then Some d else None | Fail _ => None end
                  | None => None
                  end in
  mkImageData (aj_name j) (aj_internal_name j) (aj_path j) width height (aj_link j)
    (or_else (aj_alpha_test_value j) ALPHA_TEST_VALUE_DEFAULT) (aj_is_opaque j) (aj_is_signed j) jpeg bits md5_hash.
Definition set_aj_size (width height : option u32) (j : ImageDataJson) : ImageDataJson :=
  mkImageDataJson (aj_name j) (aj_internal_name j) (aj_path j) width height (aj_link j) (aj_alpha_test_value j)
    (aj_is_opaque j) (aj_is_signed j) (aj_jpeg_name j) (aj_jpeg_internal_name j) (aj_jpeg_path j) (aj_name_dedup j) (aj_md5_hash j).
Definition set_aj_name_dedup (d : option rstring) (j : ImageDataJson) : ImageDataJson :=
  mkImageDataJson (aj_name j) (aj_internal_name j) (aj_path j) (aj_width j) (aj_height j) (aj_link j) (aj_alpha_test_value j)
    (aj_is_opaque j) (aj_is_signed j) (aj_jpeg_name j) (aj_jpeg_internal_name j) (aj_jpeg_path j) d (aj_md5_hash j).
Definition set_sj_name_dedup (d : option rstring) (j : SoundDataJson) : SoundDataJson :=
  mkSoundDataJson (sj_name j) (sj_path j) (sj_internal_name j) (sj_fade j) (sj_volume j) (sj_balance j) (sj_output_target j) d.
(** font.rs:15-35 [FontDataJson] *)
Record FontDataJson : Type := mkFontDataJson { fj_name : rstring; fj_path : rstring }.
Definition FontDataJson_of (f : FontData) : FontDataJson := mkFontDataJson (fo_name f) (fo_path f).
Definition FontDataJson_to (j : FontDataJson) : FontData := mkFontData (fj_name j) (fj_path j) [].
(** font.rs:49-55 [ext] *)
Definition FontData_ext (f : FontData) : rstring := path_ext (fo_path f).

Section Assets.
(** [sanitize_filename::sanitize] and [str::to_lowercase] *)
Variables sanitize lower : rstring -> rstring.
(** The file a name in the directory denotes *)
Variable key : rstring -> rstring.

(** [fs.exists], [fs.read_file], [fs.write_file] in the directory *)
Definition exists_in (dir : files) (name : rstring) : bool := match hget (key name) dir with Some _ => true | None => false end.
Definition store (name : rstring) (d : bytes) (dir : files) : files := hinsert (key name) d dir.

(** ** File names *)
(** sounds.rs:25-45, images.rs:45-64: the [name_dedup] of an entry, and the duplicates seen so far.  (The counter is an [i32].) *)
Definition name_dedup_of (used : list rstring) (count : N) (name : rstring) : option rstring * N :=
  let name_sanitized := sanitize name in
  let dedup := if rstring_eqb name_sanitized name then None else Some name_sanitized in
  if contains used (lower name_sanitized) then (Some (name ++ lit "_dedup" ++ dec_text (count + 1)), (count + 1)%N)
  else (dedup, count).
(** ... of every entry, in order *)
Fixpoint name_dedups (used : list rstring) (count : N) (names : list rstring) : list (option rstring) :=
  match names with
  | [] => []
  | n :: names' =>
      let '(d, count') := name_dedup_of used count n in d :: name_dedups (lower (sanitize n) :: used) count' names'
  end.
(** [format!("{}.{}", actual_name, ext)] *)
Definition asset_file_name (dedup : option rstring) (name ext : rstring) : rstring := or_else dedup name ++ lit "." ++ ext.

(** ** Sounds *)
Definition indexed_sounds (sounds : list SoundData) : list (SoundDataJson * SoundData) :=
  combine (map (fun e => set_sj_name_dedup (fst e) (SoundDataJson_of (snd e)))
               (combine (name_dedups [] 0 (map so_name sounds)) sounds)) sounds.
(** sounds.rs:57-72: the files, one after the other.  sounds.rs:46 falls back to [name_sanitized], which is the name when there is
    no [name_dedup]. *)
Fixpoint write_sound_files (checked : bool) (l : list (SoundDataJson * SoundData)) (dir : files) : res files :=
  match l with
  | [] => Ok dir
  | (j, s) :: l' =>
      let name := asset_file_name (sj_name_dedup j) (so_name s) (SoundData_ext s) in
      if exists_in dir name then Err
      else d <~ write_sound checked s ;; write_sound_files checked l' (store name d dir)
  end.
(** sounds.rs:13-73 [write_sounds]: the index and the directory "sounds" *)
Definition write_sounds (checked : bool) (sounds : list SoundData) (dir : files) : res (list SoundDataJson * files) :=
  let l := indexed_sounds sounds in
  dir' <~ write_sound_files checked l dir ;; Ok (map fst l, dir').
(** sounds.rs:86-105, for one entry *)
Definition read_one_sound (dir : files) (j : SoundDataJson) : res SoundData :=
  let sound := SoundDataJson_to j in
  match hget (key (asset_file_name (sj_name_dedup j) (so_name sound) (SoundData_ext sound))) dir with
  | Some d => read_sound d sound
  | None => Err
  end.
Fixpoint try_map {A B} (f : A -> res B) (l : list A) : res (list B) :=
  match l with [] => Ok [] | x :: l' => y <~ f x ;; ys <~ try_map f l' ;; Ok (y :: ys) end.
(** sounds.rs:75-107 [read_sounds]; [None]: there is no sounds.json *)
Definition read_sounds (index : option (list SoundDataJson)) (dir : files) : res (list SoundData) :=
  match index with None => Ok [] | Some l => try_map (read_one_sound dir) l end.

(** ** Images *)
(** the image crate: the dimensions found in a file (images.rs:344-383; the name tells the format), and the codecs of Image.v *)
Variable dimensions : rstring -> bytes -> option (u32 * u32).
Variable lzw_encode lzw_decode : bytes -> res bytes.
Variable bmp_encode : dyn_image -> res bytes.
Variable load_from_memory : bytes -> res dyn_image.

(** images.rs:66-97: which dimensions go into the index *)
Definition stored_size (file_name : rstring) (v : ImageData) : option u32 * option u32 :=
  match im_link v with
  | Some _ => (Some (im_width v), Some (im_height v))
  | None =>
      match im_jpeg v with
      | Some j =>
          match dimensions file_name (ij_data j) with
          | Some (w, h) => (if w32_eqb (im_width v) w then None else Some (im_width v),
                            if w32_eqb (im_height v) h then None else Some (im_height v))
          | None => (Some (im_width v), Some (im_height v))
          end
      | None => (None, None)
      end
  end.
Definition index_image (d : option rstring) (v : ImageData) : ImageDataJson :=
  let name := asset_file_name d (im_name v) (ImageData_ext v) in
  let '(w, h) := stored_size name v in set_aj_size w h (set_aj_name_dedup d (ImageDataJson_of v)).
Definition indexed_images (images : list ImageData) : list (ImageDataJson * ImageData) :=
  combine (map (fun e => index_image (fst e) (snd e)) (combine (name_dedups [] 0 (map im_name images)) images)) images.
(** images.rs:121-196: the files; an image of pixels must be a .bmp ([assert_eq!]) *)
Fixpoint write_image_files (l : list (ImageDataJson * ImageData)) (dir : files) : res files :=
  match l with
  | [] => Ok dir
  | (j, v) :: l' =>
      let name := asset_file_name (aj_name_dedup j) (im_name v) (ImageData_ext v) in
      if exists_in dir name then Err
      else if ImageData_is_link v then write_image_files l' dir
      else match im_jpeg v with
           | Some p => write_image_files l' (store name (ij_data p) dir)
           | None =>
               match im_bits v with
               | Some b =>
                   if eq_ignore_ascii_case (ImageData_ext v) (lit "bmp")
                   then d <~ write_image_bmp lzw_decode bmp_encode b (w32_to_Z (im_width v)) (w32_to_Z (im_height v)) ;;
                        write_image_files l' (store name d dir)
                   else Panic
               | None => Err
               end
           end
  end.
(** images.rs:21-202 [write_images] *)
Definition write_images (images : list ImageData) (dir : files) : res (list ImageDataJson * files) :=
  let l := indexed_images images in
  dir' <~ write_image_files l dir ;; Ok (map fst l, dir').
(** images.rs:251-341, for one entry *)
Definition read_one_image (checked : bool) (dir : files) (j : ImageDataJson) : res ImageData :=
  if aj_is_link j then Ok (ImageDataJson_to j (or_else (aj_width j) (Z_to_w32 0)) (or_else (aj_height j) (Z_to_w32 0)) None)
  else
    let full_file_name := asset_file_name (aj_name_dedup j) (aj_name j) (aj_ext j) in
    let webp_name := asset_file_name (aj_name_dedup j) (aj_name j) (lit "webp") in
    let webp := rstring_eqb (aj_ext j) (lit "png") && negb (exists_in dir full_file_name) && exists_in dir webp_name in
    match hget (key (if webp then webp_name else full_file_name)) dir with
    | None => Err
    | Some d =>
        if aj_is_bmp j then
          '(w, h, b) <~ read_image_bmp lzw_encode load_from_memory checked d ;;
          Ok (ImageDataJson_to j (Z_to_w32 w) (Z_to_w32 h) (Some b))
        else
          let from_file := dimensions full_file_name d in
          match match aj_width j with Some w => Some w | None => option_map fst from_file end,
                match aj_height j with Some h => Some h | None => option_map snd from_file end with
          | Some w, Some h =>
              let image := ImageDataJson_to j w h None in
              let image := match im_jpeg image with
                           | Some p => set_im_jpeg (Some (mkImageDataJpeg (ij_path p) (ij_name p) (ij_internal_name p) d)) image
                           | None => image
                           end in
              Ok (if webp then ImageData_change_extension (lit "webp") image else image)
          | _, _ => Err
          end
    end.
(** images.rs:238-343 [read_images] *)
Definition read_images (checked : bool) (index : option (list ImageDataJson)) (dir : files) : res (list ImageData) :=
  match index with None => Ok [] | Some l => try_map (read_one_image checked dir) l end.

(** ** Fonts *)
Definition font_file_name (f : FontData) : rstring := sanitize (fo_name f) ++ lit "." ++ FontData_ext f.
(** fonts.rs:12-33 [write_fonts]: an existing file is replaced *)
Definition write_fonts (fonts : list FontData) (dir : files) : list FontDataJson * files :=
  (map FontDataJson_of fonts, fold_left (fun d f => store (font_file_name f) (fo_data f) d) fonts dir).
(** fonts.rs:50-66, for one entry *)
Definition read_one_font (dir : files) (j : FontDataJson) : res FontData :=
  let f := FontDataJson_to j in
  match hget (key (font_file_name f)) dir with
  | Some d => Ok (mkFontData (fo_name f) (fo_path f) d)
  | None => Err
  end.
(** fonts.rs:35-69 [read_fonts] *)
Definition read_fonts (index : option (list FontDataJson)) (dir : files) : res (list FontData) :=
  match index with None => Ok [] | Some l => try_map (read_one_font dir) l end.
End Assets.

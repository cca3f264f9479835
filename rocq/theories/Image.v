(** Images: the record stream of an image, bitmap blocks, pixel order, file extensions. *)
From Verif Require Import Base Text Biff Quantize Common Enums ItemBase Structs.

(** ** The stored image *)
(** image.rs:13-20 *)
Record ImageDataJpeg : Type := mkImageDataJpeg {
  ij_path : rstring; ij_name : rstring; ij_internal_name : option rstring; ij_data : bytes }.
(** image.rs:54-151; [bits] is [ImageDataBits { lzw_compressed_data }] (image.rs:38-41), [md5_hash] has 16 bytes *)
Record ImageData : Type := mkImageData {
  im_name : rstring; im_internal_name : option rstring; im_path : rstring; im_width : u32; im_height : u32;
  im_link : option u32; im_alpha_test_value : f32; im_is_opaque : option bool; im_is_signed : option bool;
  im_jpeg : option ImageDataJpeg; im_bits : option bytes; im_md5_hash : option bytes }.
Definition ImageData_eta (s : ImageData) : ImageData :=
  mkImageData (im_name s) (im_internal_name s) (im_path s) (im_width s) (im_height s) (im_link s) (im_alpha_test_value s)
    (im_is_opaque s) (im_is_signed s) (im_jpeg s) (im_bits s) (im_md5_hash s).
Definition set_im_name (x : rstring) (s : ImageData) : ImageData := ltac:(setter ImageData_eta im_name s x).
Definition set_im_internal_name (x : option rstring) (s : ImageData) : ImageData := ltac:(setter ImageData_eta im_internal_name s x).
Definition set_im_path (x : rstring) (s : ImageData) : ImageData := ltac:(setter ImageData_eta im_path s x).
Definition set_im_width (x : u32) (s : ImageData) : ImageData := ltac:(setter ImageData_eta im_width s x).
Definition set_im_height (x : u32) (s : ImageData) : ImageData := ltac:(setter ImageData_eta im_height s x).
Definition set_im_link (x : option u32) (s : ImageData) : ImageData := ltac:(setter ImageData_eta im_link s x).
Definition set_im_alpha_test_value (x : f32) (s : ImageData) : ImageData := ltac:(setter ImageData_eta im_alpha_test_value s x).
Definition set_im_is_opaque (x : option bool) (s : ImageData) : ImageData := ltac:(setter ImageData_eta im_is_opaque s x).
Definition set_im_is_signed (x : option bool) (s : ImageData) : ImageData := ltac:(setter ImageData_eta im_is_signed s x).
Definition set_im_jpeg (x : option ImageDataJpeg) (s : ImageData) : ImageData := ltac:(setter ImageData_eta im_jpeg s x).
Definition set_im_bits (x : option bytes) (s : ImageData) : ImageData := ltac:(setter ImageData_eta im_bits s x).
Definition set_im_md5_hash (x : option bytes) (s : ImageData) : ImageData := ltac:(setter ImageData_eta im_md5_hash s x).

(** image.rs:343-360 *)
Definition ImageData_default : ImageData :=
  mkImageData [] None [] (Z_to_w32 0) (Z_to_w32 0) None (Z_to_w32 0) None None None None None.

(** image.rs:469-513 [read_jpeg]; the local variables of the loop are the fields and [size_opt] *)
Record JpegState : Type := mkJpegState { js_jpeg : ImageDataJpeg; js_size : option u32 }.
Definition Jpeg_arms : list (arm JpegState) :=
  [ ("SIZE", fun s => x <- get_u32 ;; rret (mkJpegState (js_jpeg s) (Some x)));
    ("DATA", fun s => match js_size s with
       | Some n => x <- get_data (w32_to_Z n) ;;
                   rret (mkJpegState (mkImageDataJpeg (ij_path (js_jpeg s)) (ij_name (js_jpeg s)) (ij_internal_name (js_jpeg s)) x) (js_size s))
       | None => rpanic
       end);
    ("NAME", fun s => x <- get_string ;;
       rret (mkJpegState (mkImageDataJpeg (ij_path (js_jpeg s)) x (ij_internal_name (js_jpeg s)) (ij_data (js_jpeg s))) (js_size s)));
    ("PATH", fun s => x <- get_string ;;
       rret (mkJpegState (mkImageDataJpeg x (ij_name (js_jpeg s)) (ij_internal_name (js_jpeg s)) (ij_data (js_jpeg s))) (js_size s)));
    ("INME", fun s => x <- get_string ;;
       rret (mkJpegState (mkImageDataJpeg (ij_path (js_jpeg s)) (ij_name (js_jpeg s)) (Some x) (ij_data (js_jpeg s))) (js_size s))) ]%string.
Definition Jpeg_init : JpegState := mkJpegState (mkImageDataJpeg [] [] None []) None.
Definition Jpeg_loop : rd_M JpegState := read_arms Jpeg_arms Jpeg_init.
(** image.rs:515-527 [write_jpg]; [img.data.len().try_into().unwrap()] *)
Definition Jpeg_write_m (v : ImageDataJpeg) : wr_M :=
  write_tagged_string "NAME" (ij_name v) >>>
  wopt (ij_internal_name v) (fun x => write_tagged_string "INME" x) >>>
  write_tagged_string "PATH" (ij_path v) >>>
  wlift (try_u32 (zlen (ij_data v))) (fun n => write_tagged_u32 "SIZE" n) >>>
  write_tagged_data "DATA" (ij_data v) >>>
  close true.
Definition write_jpg (v : ImageDataJpeg) : res bytes := run_writer (Jpeg_write_m v).

(** the bytes of the record that follows the bitmap, image.rs:401 *)
Definition ALTV_bytes : bytes := list_byte_of_string "ALTV".
(** image.rs:362-436 [read]; unknown records are skipped *)
Definition ImageData_arms : list (arm ImageData) :=
  [ ("NAME", fun s => x <- get_string ;; rret (set_im_name x s));
    ("PATH", fun s => x <- get_string ;; rret (set_im_path x s));
    ("INME", fun s => x <- get_string ;; rret (set_im_internal_name (Some x) s));
    ("WDTH", fun s => x <- get_u32 ;; rret (set_im_width x s));
    ("HGHT", fun s => x <- get_u32 ;; rret (set_im_height x s));
    ("ALTV", fun s => x <- get_f32 ;; rret (set_im_alpha_test_value x s));
    ("OPAQ", fun s => x <- get_bool ;; rret (set_im_is_opaque (Some x) s));
    ("SIGN", fun s => x <- get_bool ;; rret (set_im_is_signed (Some x) s));
    ("BITS", fun s => x <- data_until ALTV_bytes ;; rret (set_im_bits (Some x) s));
    ("JPEG", fun s => x <- with_child Jpeg_loop ;; rret (set_im_jpeg (Some (js_jpeg x)) s));
    ("LINK", fun s => x <- get_u32 ;; rret (set_im_link (Some x) s));
    ("MD5H", fun s => x <- get_data 16 ;; rret (set_im_md5_hash (Some x) s)) ]%string.
Definition ImageData_loop : rd_M ImageData := read_arms ImageData_arms ImageData_default.
(** image.rs:338-340 [biff_read] on a fresh reader (vpx/mod.rs:963-970 [read_image]) *)
Definition ImageData_read (checked : bool) (input : bytes) : res ImageData := run_reader ImageData_loop checked input.
(** image.rs:438-467 [write] *)
Definition ImageData_write_m (v : ImageData) : wr_M :=
  write_tagged_string "NAME" (im_name v) >>>
  wopt (im_internal_name v) (fun x => write_tagged_string "INME" x) >>>
  write_tagged_string "PATH" (im_path v) >>>
  write_tagged_u32 "WDTH" (im_width v) >>>
  write_tagged_u32 "HGHT" (im_height v) >>>
  wopt (im_link v) (fun x => write_tagged_u32 "LINK" x) >>>
  wopt (im_bits v) (fun x => write_tagged_data_without_size "BITS" x) >>>
  wopt (im_jpeg v) (fun x => wlift (write_jpg x) (fun b => write_tagged_data_without_size "JPEG" b)) >>>
  write_tagged_f32 "ALTV" (im_alpha_test_value v) >>>
  wopt (im_md5_hash v) (fun x => write_tagged_data "MD5H" x) >>>
  wopt (im_is_opaque v) (fun x => write_tagged_bool "OPAQ" x) >>>
  wopt (im_is_signed v) (fun x => write_tagged_bool "SIGN" x) >>>
  close true.
Definition ImageData_write (v : ImageData) : res bytes := run_writer (ImageData_write_m v).

(** image.rs:170-172 [is_link] *)
Definition ImageData_is_link (v : ImageData) : bool :=
  match im_link v with Some l => w32_eqb l (Z_to_w32 1) | None => false end.

(** ** Extensions *)
(** the part of a string after its last '.', the whole string when there is none *)
Definition dot : N := 46.
Fixpoint after_last_dot (s : rstring) : option rstring :=
  match s with
  | [] => None
  | c :: s' => match after_last_dot s' with
               | Some r => Some r
               | None => if (c =? dot)%N then Some s' else None
               end
  end.
(** image.rs:174-180 [ext]: [split('.').next_back()] is never [None] *)
Definition path_ext (p : rstring) : rstring := match after_last_dot p with Some e => e | None => p end.
Definition ImageData_ext (v : ImageData) : rstring := path_ext (im_path v).
(** [[a-zA-Z0-9]] *)
Definition is_ascii_alnum (c : N) : bool :=
  ((48 <=? c) && (c <=? 57) || (65 <=? c) && (c <=? 90) || (97 <=? c) && (c <=? 122))%N.
(** image.rs:156-163: replacing the match of [\.[a-zA-Z0-9]+$] by ".ext".  The expression can only match from the last
    '.' on.  Simplification: ['$'] in [ext] would be expanded by the regex crate; all callers pass plain extensions. *)
Definition replace_ext (ext : rstring) (p : rstring) : rstring :=
  match after_last_dot p with
  | Some e => if (0 <? zlen e) && forallb is_ascii_alnum e
              then firstn (Z.to_nat (zlen p - zlen e)) p ++ ext
              else p
  | None => p
  end.
(** image.rs:156-168 [change_extension] *)
Definition ImageData_change_extension (ext : rstring) (v : ImageData) : ImageData :=
  set_im_jpeg (match im_jpeg v with
               | Some j => Some (mkImageDataJpeg (replace_ext ext (ij_path j)) (ij_name j) (ij_internal_name j) (ij_data j))
               | None => None
               end)
    (set_im_path (replace_ext ext (im_path v)) v).

(** ** Bitmap blocks *)
(** lzw.rs:16-26 [from_blocks]; [need] bytes of the current block are still to come *)
Fixpoint from_blocks_go (need : nat) (d : bytes) : res bytes :=
  match d with
  | [] => match need with O => Ok [] | S _ => Panic end
  | b :: d' => match need with
               | O => from_blocks_go (Z.to_nat (byte_to_Z b)) d'
               | S k => r <~ from_blocks_go k d' ;; Ok (b :: r)
               end
  end.
Definition from_blocks (d : bytes) : res bytes := from_blocks_go 0 d.
(** lzw.rs:33-50 [to_blocks]; [block_len : u8], so [block_len += 1] overflows at 255 (panic in debug builds, wraps otherwise) *)
Fixpoint to_blocks_go (checked : bool) (max : Z) (d : bytes) (block : bytes) (block_len : Z) : res bytes :=
  match d with
  | [] => if 0 <? block_len then Ok (Z_to_byte block_len :: block) else Ok []
  | b :: d' =>
      if checked && (block_len =? 255) then Panic else
      let block := block ++ [b] in
      let block_len := (block_len + 1) mod 256 in
      if block_len =? max
      then r <~ to_blocks_go checked max d' [] 0 ;; Ok (Z_to_byte block_len :: block ++ r)
      else to_blocks_go checked max d' block block_len
  end.
Definition to_blocks (checked : bool) (d : bytes) (max_block_len : Z) : res bytes := to_blocks_go checked max_block_len d [] 0.

(** ** Pixels *)
(** image.rs:551-557 [swap_red_and_blue]; [chunks_exact(4)] ignores an incomplete last chunk *)
Fixpoint swap_red_and_blue (d : bytes) : bytes :=
  match d with
  | a :: b :: c :: e :: d' => c :: b :: a :: e :: swap_red_and_blue d'
  | _ => []
  end.
(** image.rs:543, 586: [data.chunks_exact(4).any(|bgra| bgra[3] != 255)] *)
Fixpoint uses_alpha (d : bytes) : bool :=
  match d with
  | _ :: _ :: _ :: e :: d' => negb (Byte.eqb e xff) || uses_alpha d'
  | _ => false
  end.

(** The two forms of [DynamicImage] this code produces or accepts; [Other] stands for every other one. *)
Inductive dyn_image : Type :=
| ImageRgba8 (width height : Z) (data : bytes)
| ImageRgb8 (width height : Z) (data : bytes)
| ImageOther.
(** [to_rgb8] of an RGBA image: drop the alpha of the first [n] pixels *)
Fixpoint drop_alpha (n : nat) (d : bytes) : bytes :=
  match n, d with
  | S n', a :: b :: c :: _ :: d' => a :: b :: c :: drop_alpha n' d'
  | _, _ => []
  end.
(** [to_rgba8] of an RGB image: alpha 255 *)
Fixpoint add_alpha (n : nat) (d : bytes) : bytes :=
  match n, d with
  | S n', a :: b :: c :: d' => a :: b :: c :: xff :: add_alpha n' d'
  | _, _ => []
  end.

Section Codecs.
(** weezl's LZW (LSB first, code size 8) encoder and decoder, and the image crate's codecs, are oracles. *)
Variable lzw_encode lzw_decode : bytes -> res bytes.
Variable bmp_encode : dyn_image -> res bytes.
Variable load_from_memory : bytes -> res dyn_image.

(** lzw.rs:58-62 [to_lzw_blocks], 52-56 [to_lzw] *)
Definition to_lzw_blocks (checked : bool) (d : bytes) : res bytes :=
  c <~ lzw_encode d ;; to_blocks checked c 254.
(** lzw.rs:64-68 [from_lzw_blocks] *)
Definition from_lzw_blocks (d : bytes) : res bytes :=
  c <~ from_blocks d ;; lzw_decode c.
(** image.rs:529-548; [RgbaImage::from_raw] needs at least [4 * width * height] bytes, else [expect] panics *)
Definition vpx_image_to_dynamic_image (d : bytes) (width height : Z) : res dyn_image :=
  bgra <~ from_lzw_blocks d ;;
  let rgba := swap_red_and_blue bgra in
  if zlen rgba <? 4 * width * height then Panic else
  if uses_alpha bgra then Ok (ImageRgba8 width height rgba)
  else Ok (ImageRgb8 width height (drop_alpha (Z.to_nat (width * height)) rgba)).
(** images.rs:204-236 [write_image_bmp], the bytes handed to the file system *)
Definition write_image_bmp (d : bytes) (width height : Z) : res bytes :=
  img <~ vpx_image_to_dynamic_image d width height ;; bmp_encode img.
(** images.rs:388-417 [read_image_bmp] *)
Definition read_image_bmp (checked : bool) (file : bytes) : res (Z * Z * bytes) :=
  img <~ load_from_memory file ;;
  match img with
  | ImageRgba8 w h d => b <~ to_lzw_blocks checked (swap_red_and_blue d) ;; Ok (w, h, b)
  | ImageRgb8 w h d => b <~ to_lzw_blocks checked (swap_red_and_blue (add_alpha (Z.to_nat (w * h)) d)) ;; Ok (w, h, b)
  | ImageOther => Err
  end.
(** image.rs:567-591 [image_has_transparency]; the scan of a decoded picture (image.rs:594-606) is the oracle [decoded_transparent] *)
Definition image_has_transparency (decoded_transparent : bytes -> option bool) (v : ImageData) : res bool :=
  match im_is_opaque v with
  | Some o => Ok (negb o)
  | None =>
      match im_jpeg v with
      | Some j => Ok (match decoded_transparent (ij_data j) with Some t => t | None => false end)
      | None => match im_bits v with
                | Some b => px <~ from_lzw_blocks b ;; Ok (uses_alpha px)
                | None => Ok false
                end
      end
  end.
End Codecs.

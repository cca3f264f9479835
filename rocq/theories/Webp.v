(** Converting the images of a table file to WebP, in place. *)
From Verif Require Import Base Text Biff Common Structs GameItem GameData Image Sound Cfb Vpx.

(** vpx/mod.rs:1002-1007 [ImageToWebpConversion] *)
Record ImageToWebpConversion : Type := mkConversion { cv_name : rstring; cv_old_extension : rstring; cv_new_extension : rstring }.

Section W.
Variable up : N -> N.
(** [str::to_lowercase]; weezl's LZW decoder; [image::load_from_memory_with_format] for PNG; [DynamicImage::write_to] for WebP *)
Variable lower : rstring -> rstring.
Variable lzw_decode : bytes -> res bytes.
Variable decode_png : bytes -> res dyn_image.
Variable webp : dyn_image -> res bytes.

(** vpx/mod.rs:963-970 [read_image] *)
Definition read_image (checked : bool) (i : N) (f : cfile) : res ImageData :=
  d <~ cf_get up (stream_path "Image" i) f ;; ImageData_read checked d.
(** vpx/mod.rs:983-1000 [write_image] with [overwrite], and what the file holds afterwards: the stream is emptied before the
    image is encoded *)
Definition write_image (i : N) (v : ImageData) (f : cfile) : cfile * res unit :=
  match cf_create_stream up true (stream_path "Image" i) f with
  | Ok f1 => match ImageData_write v with
             | Ok d => (cf_set up (stream_path "Image" i) (Stream d) f1, Ok tt)
             | Fail e => (f1, Fail e)
             end
  | Fail e => (f, Fail e)
  end.
(** vpx/mod.rs:1009-1087 [images_to_webp]: the loop from image [i] on, for [n] more images.  The first result is the file when the
    call returns, whether with a report or with an error. *)
Fixpoint webp_loop (checked : bool) (n : nat) (i : N) (conversions : list ImageToWebpConversion) (f : cfile) :
    cfile * res (list ImageToWebpConversion) :=
  match n with
  | O => (f, Ok conversions)
  | S n' =>
      match read_image checked i f with
      | Fail e => (f, Fail e)
      | Ok v =>
          let ext := lower (ImageData_ext v) in
          if rstring_eqb ext (lit "png") then
            (* 1018-1047 *)
            let v' := ImageData_change_extension (lit "webp") v in
            match im_jpeg v' with
            | None => webp_loop checked n' (i + 1) conversions f
            | Some j =>
                match decode_png (ij_data j) with
                | Err => webp_loop checked n' (i + 1) conversions f
                | Fail e => (f, Fail e)
                | Ok img =>
                    match webp img with
                    | Fail e => (f, Fail e)
                    | Ok w =>
                        let v' := set_im_jpeg (Some (mkImageDataJpeg (ij_path j) (ij_name j) (ij_internal_name j) w)) v' in
                        let '(f1, r) := write_image i v' f in
                        match r with
                        | Fail e => (f1, Fail e)
                        | Ok _ => webp_loop checked n' (i + 1) (conversions ++ [mkConversion (im_name v') (lit "png") (lit "webp")]) f1
                        end
                    end
                end
            end
          else if rstring_eqb ext (lit "bmp") then
            (* 1048-1082 *)
            let v' := ImageData_change_extension (lit "webp") v in
            let conversions' := conversions ++ [mkConversion (im_name v') (lit "bmp") (lit "webp")] in
            match im_bits v' with
            | None => webp_loop checked n' (i + 1) conversions' f
            | Some b =>
                match vpx_image_to_dynamic_image lzw_decode b (w32_to_Z (im_width v')) (w32_to_Z (im_height v')) with
                | Fail e => (f, Fail e)
                | Ok img =>
                    match webp img with
                    | Fail e => (f, Fail e)
                    | Ok w =>
                        let j := mkImageDataJpeg (im_path v') (im_name v') None w in
                        let v' := set_im_jpeg (Some j) (set_im_bits None v') in
                        let '(f1, r) := write_image i v' f in
                        match r with
                        | Fail e => (f1, Fail e)
                        | Ok _ => webp_loop checked n' (i + 1) conversions' f1
                        end
                    end
                end
            end
          else webp_loop checked n' (i + 1) conversions f
      end
  end.
(** vpx/mod.rs:307-313 [VpxFile::images_to_webp]; flushing the file is left out *)
Definition images_to_webp (checked : bool) (f : cfile) : cfile * res (list ImageToWebpConversion) :=
  match file_read_gamedata up checked f with
  | Fail e => (f, Fail e)
  | Ok g => webp_loop checked (u32_nat (gt_images_size (gd_tail g))) 0 [] f
  end.
End W.

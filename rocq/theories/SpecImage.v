(** The specification used by the statements about images: layout on disk, block framing, pixels. *)
From Verif Require Import Base Text Biff Quantize Common Enums SpecBiff SpecItems Structs SpecStructs Image.

(** ** Layout of an image *)
Definition opt_record {A} (t : string) (f : A -> bytes) (o : option A) : list (string * bytes) :=
  match o with Some x => [(t, f x)] | None => [] end.
(** The records before the picture data, *)
Definition image_head (v : ImageData) : list (string * bytes) :=
  [("NAME"%string, string_payload (im_name v))] ++ opt_record "INME" string_payload (im_internal_name v) ++
  [("PATH"%string, string_payload (im_path v)); ("WDTH"%string, w32_bytes (im_width v)); ("HGHT"%string, w32_bytes (im_height v))] ++
  opt_record "LINK" w32_bytes (im_link v).
(** and after it. *)
Definition image_tail (v : ImageData) : list (string * bytes) :=
  [("ALTV"%string, w32_bytes (im_alpha_test_value v))] ++ opt_record "MD5H" (fun d => d) (im_md5_hash v) ++
  opt_record "OPAQ" bool_payload (im_is_opaque v) ++ opt_record "SIGN" bool_payload (im_is_signed v).
Definition jpeg_records (j : ImageDataJpeg) : list (string * bytes) :=
  [("NAME"%string, string_payload (ij_name j))] ++ opt_record "INME" string_payload (ij_internal_name j) ++
  [("PATH"%string, string_payload (ij_path j)); ("SIZE"%string, le32 (zlen (ij_data j))); ("DATA"%string, ij_data j)].
(** Picture data follows a header of size 4: raw bytes for a bitmap, a record stream for a file. *)
Definition picture_bytes (bits : option bytes) (jpeg : option (list (string * bytes))) : bytes :=
  match bits with Some b => record_bytes ("BITS"%string, []) ++ b | None => [] end ++
  match jpeg with Some rs => record_bytes ("JPEG"%string, []) ++ stream_bytes rs | None => [] end.
Definition image_bytes (hs : list (string * bytes)) (picture : bytes) (ts : list (string * bytes)) : bytes :=
  flat_map record_bytes hs ++ picture ++ stream_bytes ts.

(** ** Images that can be stored *)
(** [d] contains the four bytes "ALTV". *)
Definition contains_marker (d : bytes) : Prop := exists a b, d = a ++ list_byte_of_string "ALTV" ++ b.
Definition jpeg_fits (j : ImageDataJpeg) : Prop :=
  string_fits (ij_name j) /\ option_all string_fits (ij_internal_name j) /\ string_fits (ij_path j) /\ data_fits (ij_data j).
Definition image_fits (v : ImageData) : Prop :=
  string_fits (im_name v) /\ option_all string_fits (im_internal_name v) /\ string_fits (im_path v) /\
  option_all (fun b => ~ contains_marker b) (im_bits v) /\ option_all jpeg_fits (im_jpeg v) /\
  option_all (fun d => zlen d = 16) (im_md5_hash v).
(** At most one kind of picture data. *)
Definition one_kind (v : ImageData) : Prop := im_bits v = None \/ im_jpeg v = None.
(** Extra records in the JPEG part. *)
Definition jpeg_inserted (o : option ImageDataJpeg) (rs : option (list (string * bytes))) : Prop :=
  match o, rs with
  | Some j, Some rs => Inserted ["SIZE"; "DATA"; "NAME"; "PATH"; "INME"]%string (jpeg_records j) rs
  | None, None => True
  | _, _ => False
  end.

(** ** Blocks *)
(** Blocks one after the other, each preceded by its length. *)
Definition framed (blocks : list bytes) : bytes := flat_map (fun b => Z_to_byte (zlen b) :: b) blocks.

(** ** Pixels *)
Record pixel : Type := Px { ch0 : byte; ch1 : byte; ch2 : byte; ch3 : byte }.
Definition pixels_bytes (l : list pixel) : bytes := flat_map (fun p => [ch0 p; ch1 p; ch2 p; ch3 p]) l.
Definition swap_px (p : pixel) : pixel := Px (ch2 p) (ch1 p) (ch0 p) (ch3 p).

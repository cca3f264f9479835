(** Whole tables: src/vpx/mod.rs. *)
From Verif Require Import Base Text Biff Quantize Common Enums Structs GameItem GameData Image Sound Cfb TableInfo.

(** mod.rs:97-109 *)
Record VPX : Type := mkVPX {
  vpx_custominfotags : list rstring;
  vpx_info : TableInfo;
  vpx_version : u32;
  vpx_gamedata : GameData;
  vpx_gameitems : list GameItem;
  vpx_images : list ImageData;
  vpx_sounds : list SoundData;
  vpx_fonts : list FontData;
  vpx_collections : list Collection }.

(** ** Editing a table in memory *)
(** mod.rs:117-121 [add_game_item]; [as u32] wraps *)
Definition add_game_item (i : GameItem) (v : VPX) : VPX :=
  let items := vpx_gameitems v ++ [i] in
  mkVPX (vpx_custominfotags v) (vpx_info v) (vpx_version v)
    (set_gd_tail (set_gt_gameitems_size (Z_to_w32 (zlen items)) (gd_tail (vpx_gamedata v))) (vpx_gamedata v))
    items (vpx_images v) (vpx_sounds v) (vpx_fonts v) (vpx_collections v).
(** mod.rs:123-126 [set_script] *)
Definition set_script (s : rstring) (v : VPX) : VPX :=
  mkVPX (vpx_custominfotags v) (vpx_info v) (vpx_version v) (GameData_set_code s (vpx_gamedata v))
    (vpx_gameitems v) (vpx_images v) (vpx_sounds v) (vpx_fonts v) (vpx_collections v).
(** mod.rs:128-148 [add_or_replace_image]: the table and the image that was replaced.  Adding 1 to the counter overflows at 2^32-1:
    a panic with overflow checks, 0 without. *)
Fixpoint replace_first_image (i : ImageData) (l : list ImageData) : option (ImageData * list ImageData) :=
  match l with
  | [] => None
  | x :: l' => if eq_ignore_ascii_case (im_name x) (im_name i) then Some (x, i :: l')
               else match replace_first_image i l' with Some (o, l'') => Some (o, x :: l'') | None => None end
  end.
Definition add_or_replace_image (checked : bool) (i : ImageData) (v : VPX) : res (VPX * option ImageData) :=
  match replace_first_image i (vpx_images v) with
  | Some (old, images) =>
      Ok (mkVPX (vpx_custominfotags v) (vpx_info v) (vpx_version v) (vpx_gamedata v)
            (vpx_gameitems v) images (vpx_sounds v) (vpx_fonts v) (vpx_collections v), Some old)
  | None =>
      n <~ u32_arith checked (w32_to_Z (gt_images_size (gd_tail (vpx_gamedata v))) + 1) ;;
      Ok (mkVPX (vpx_custominfotags v) (vpx_info v) (vpx_version v)
            (set_gd_tail (set_gt_images_size (Z_to_w32 n) (gd_tail (vpx_gamedata v))) (vpx_gamedata v))
            (vpx_gameitems v) (vpx_images v ++ [i]) (vpx_sounds v) (vpx_fonts v) (vpx_collections v), None)
  end.

Section VpxIO.
Variable up : N -> N.
Variable order : list (rstring * node) -> list (rstring * node).
(** The MD2 hash of a byte string, by the external crate md2: an arbitrary function.  [update] appends to the hashed bytes. *)
Variable md2 : bytes -> bytes.

Definition stream_path (prefix : string) (i : N) : cpath := [GameStg; lit prefix ++ dec_text i].

(** The loops of [read_gameitems] (mod.rs:818-833), [read_sounds] (873-901), [read_collections] (921-936), [read_images] (954-971)
    and [read_fonts] (1082-1097): streams number [i], [i+1], .. *)
Fixpoint read_numbered {A} (read : bytes -> res A) (prefix : string) (i : N) (n : nat) (f : cfile) : res (list A) :=
  match n with
  | O => Ok []
  | S n' => d <~ cf_get up (stream_path prefix i) f ;; x <~ read d ;;
            xs <~ read_numbered read prefix (i + 1) n' f ;; Ok (x :: xs)
  end.
(** The loops of [write_game_items] (mod.rs:836-858), [write_sounds] (903-919), [write_collections] (938-952), [write_images]
    (973-1006, with [create_new_stream]) and [write_fonts] (1099-1110) *)
Fixpoint write_numbered {A} (overwrite : bool) (write : A -> res bytes) (prefix : string) (i : N) (xs : list A) (f : cfile) : res cfile :=
  match xs with
  | [] => Ok f
  | x :: xs' => f1 <~ cf_store up overwrite (stream_path prefix i) (write x) f ;;
                write_numbered overwrite write prefix (i + 1) xs' f1
  end.
Definition u32_nat (n : u32) : nat := Z.to_nat (w32_to_Z n).

(** mod.rs:1112-1127 [read_custominfotags], 1129-1140 [write_custominfotags] *)
Definition read_custominfotags (checked : bool) (f : cfile) : res (list rstring) :=
  if cf_is_stream up [GameStg; lit "CustomInfoTags"] f
  then d <~ cf_get up [GameStg; lit "CustomInfoTags"] f ;; CustomInfoTags_read checked d
  else Ok [].
Definition write_custominfotags (tags : list rstring) (f : cfile) : res cfile :=
  d <~ CustomInfoTags_write tags ;; cf_store up true [GameStg; lit "CustomInfoTags"] (Ok d) f.
(** mod.rs:787-799 [read_gamedata], 801-815 [write_game_data] *)
Definition read_gamedata (checked : bool) (version : u32) (f : cfile) : res GameData :=
  d <~ cf_get up [GameStg; lit "GameData"] f ;; GameData_read (w32_to_Z version) checked d.
Definition write_game_data (g : GameData) (version : u32) (f : cfile) : res cfile :=
  cf_store up true [GameStg; lit "GameData"] (GameData_write (w32_to_Z version) g) f.

(** ** The message authentication code *)
(** A loop that tests for the end before it asks for the next record, mod.rs:711-735 and 744-760 *)
Fixpoint eof_loop {S : Type} (fuel : nat) (h : string -> S -> rd_M S) (s : S) : rd_M S :=
  match fuel with
  | O => fun _ => OutOfFuel
  | Datatypes.S fuel' =>
      fun r => if is_eof r then Ok (s, r)
               else (next ;;; fun r1 => (s' <- h (r_tag r1) s ;; eof_loop fuel' h s') r1) r
  end.
Definition run_eof_loop {S : Type} (h : string -> S -> rd_M S) (s : S) (checked : bool) (d : bytes) : res S :=
  match eof_loop (Datatypes.S (loop_fuel (rd_new checked d))) h s (rd_new checked d) with Ok (x, _) => Ok x | Fail f => Fail f end.
(** mod.rs:717-734: the hashed bytes of one record *)
Definition mac_record (t : string) (acc : bytes) : rd_M bytes :=
  if (t =? "CODE")%string
  then n <- get_u32_no_remaining_update ;; d <- get_no_remaining_update (w32_to_Z n) ;;
       rret (acc ++ list_byte_of_string "CODE" ++ d)
  else d <- get_record_data true ;; rret (acc ++ d).
(** mod.rs:746-759: the value of the custom property a tag names *)
Definition mac_property (f : cfile) (t : string) (acc : bytes) : rd_M bytes :=
  if (t =? "CUST")%string
  then name <- get_string ;;
       match formatted_chain TableInfoStg name with
       | Ok p => if cf_exists up p f then d <- rlift (cf_get up p f) ;; rret (acc ++ d) else rret acc
       | Fail _ => rret acc
       end
  else skip_tag ;;; rret acc.
(** mod.rs:668-681 [append_structure] for "GameStg/Collection", hashing each: [while comp.exists(..)].  The number of entries of the
    file bounds the number of iterations. *)
Fixpoint mac_collections (fuel : nat) (i : N) (checked : bool) (f : cfile) : res bytes :=
  match fuel with
  | O => OutOfFuel
  | S fuel' =>
      if cf_exists up (stream_path "Collection" i) f
      then d <~ cf_get up (stream_path "Collection" i) f ;; x <~ run_eof_loop mac_record [] checked d ;;
           xs <~ mac_collections fuel' (i + 1) checked f ;; Ok (x ++ xs)
      else Ok []
  end.
(** mod.rs:704-709: a stream that is hashed as it is, when it exists *)
Definition mac_bytes (p : cpath) (f : cfile) : res bytes := if cf_exists up p f then cf_get up p f else Ok [].
(** mod.rs:710-735: a stream that is hashed record by record *)
Definition mac_biff (p : cpath) (checked : bool) (f : cfile) : res bytes :=
  if cf_exists up p f then d <~ cf_get up p f ;; run_eof_loop mac_record [] checked d else Ok [].
(** mod.rs:738-762 *)
Definition mac_properties (checked : bool) (f : cfile) : res bytes :=
  if cf_exists up [GameStg; lit "CustomInfoTags"] f
  then d <~ cf_get up [GameStg; lit "CustomInfoTags"] f ;; run_eof_loop (mac_property f) [] checked d
  else Ok [].
(** mod.rs:643-767 [generate_mac]: the entries of the list that are not hashed (TableSaveDate, TableSaveRev) are left out *)
Definition mac_content (checked : bool) (f : cfile) : res bytes :=
  version <~ mac_bytes [GameStg; lit "Version"] f ;;
  table_name <~ mac_bytes [TableInfoStg; lit "TableName"] f ;;
  author_name <~ mac_bytes [TableInfoStg; lit "AuthorName"] f ;;
  table_version <~ mac_bytes [TableInfoStg; lit "TableVersion"] f ;;
  release_date <~ mac_bytes [TableInfoStg; lit "ReleaseDate"] f ;;
  author_email <~ mac_bytes [TableInfoStg; lit "AuthorEmail"] f ;;
  author_website <~ mac_bytes [TableInfoStg; lit "AuthorWebSite"] f ;;
  table_blurb <~ mac_bytes [TableInfoStg; lit "TableBlurb"] f ;;
  table_description <~ mac_bytes [TableInfoStg; lit "TableDescription"] f ;;
  table_rules <~ mac_bytes [TableInfoStg; lit "TableRules"] f ;;
  screenshot <~ mac_bytes [TableInfoStg; lit "Screenshot"] f ;;
  tags <~ mac_biff [GameStg; lit "CustomInfoTags"] checked f ;;
  properties <~ mac_properties checked f ;;
  gamedata <~ mac_biff [GameStg; lit "GameData"] checked f ;;
  collections <~ mac_collections (S (List.length f)) 0 checked f ;;
  Ok (list_byte_of_string "Visual Pinball" ++ version ++ table_name ++ author_name ++ table_version ++ release_date ++ author_email ++
      author_website ++ table_blurb ++ table_description ++ table_rules ++ screenshot ++ tags ++ properties ++ gamedata ++ collections).
Definition generate_mac (checked : bool) (f : cfile) : res bytes := c <~ mac_content checked f ;; Ok (md2 c).
(** mod.rs:595-608 [read_mac], 610-614 [write_mac] *)
Definition read_mac (f : cfile) : res bytes :=
  if cf_exists up [GameStg; lit "MAC"] f then cf_get up [GameStg; lit "MAC"] f else Err.
Definition write_mac (mac : bytes) (f : cfile) : res cfile := cf_store up true [GameStg; lit "MAC"] (Ok mac) f.
(** mod.rs:553-577 [verify], on an opened file; a panic of [generate_mac] is a panic *)
Inductive VerifyResult := VerifyOk | VerifyFailed.
Definition verify (checked : bool) (f : cfile) : res VerifyResult :=
  match read_mac f with
  | Ok mac => match generate_mac checked f with
              | Ok mac' => Ok (if bytes_eqb mac mac' then VerifyOk else VerifyFailed)
              | Err => Ok VerifyFailed
              | Fail e => Fail e
              end
  | Err => Ok VerifyFailed
  | Fail e => Fail e
  end.

(** ** Reading and writing whole tables *)
(** mod.rs:422-445 [read_vpx] *)
Definition read_vpx (checked : bool) (f : cfile) : res VPX :=
  tags <~ read_custominfotags checked f ;;
  info <~ read_tableinfo up order f ;;
  version <~ read_version up f ;;
  gamedata <~ read_gamedata checked version f ;;
  let t := gd_tail gamedata in
  items <~ read_numbered (gameitem_read checked) "GameItem" 0 (u32_nat (gt_gameitems_size t)) f ;;
  images <~ read_numbered (ImageData_read checked) "Image" 0 (u32_nat (gt_images_size t)) f ;;
  sounds <~ read_numbered (Sound_read checked (w32_to_Z version)) "Sound" 0 (u32_nat (gt_sounds_size t)) f ;;
  fonts <~ read_numbered (FontData_read checked) "Font" 0 (u32_nat (gt_fonts_size t)) f ;;
  collections <~ read_numbered (Collection_read checked) "Collection" 0 (u32_nat (gt_collections_size t)) f ;;
  Ok (mkVPX tags info version gamedata items images sounds fonts collections).
(** mod.rs:447-471 [write_vpx], into an empty compound file; [checked] is about the readers used for the MAC *)
Definition write_vpx (checked : bool) (v : VPX) (f : cfile) : res cfile :=
  f <~ cf_create_storage up [GameStg] f ;;
  f <~ write_custominfotags (vpx_custominfotags v) f ;;
  f <~ write_tableinfo up (vpx_info v) f ;;
  f <~ write_version up (vpx_version v) f ;;
  f <~ write_game_data (vpx_gamedata v) (vpx_version v) f ;;
  f <~ write_numbered true gameitem_write "GameItem" 0 (vpx_gameitems v) f ;;
  f <~ write_numbered false ImageData_write "Image" 0 (vpx_images v) f ;;
  f <~ write_numbered true (Sound_write (w32_to_Z (vpx_version v))) "Sound" 0 (vpx_sounds v) f ;;
  f <~ write_numbered true FontData_write "Font" 0 (vpx_fonts v) f ;;
  f <~ write_numbered true Collection_write "Collection" 0 (vpx_collections v) f ;;
  mac <~ generate_mac checked f ;;
  write_mac mac f.
(** mod.rs:474-496 [new_minimal_vpx] *)
Definition write_minimal_vpx (checked : bool) (f : cfile) : res cfile :=
  f <~ write_tableinfo up TableInfo_new f ;;
  f <~ cf_create_storage up [GameStg] f ;;
  let version := Z_to_w32 1072 in
  f <~ write_version up version f ;;
  f <~ write_game_data GameData_default version f ;;
  mac <~ generate_mac checked f ;;
  write_mac mac f.

(** ** Editing a table file in place *)
(** mod.rs:220-226 [VpxFile::write_gamedata] *)
Definition file_write_gamedata (checked : bool) (g : GameData) (f : cfile) : res cfile :=
  version <~ read_version up f ;;
  f <~ write_game_data g version f ;;
  mac <~ generate_mac checked f ;;
  write_mac mac f.
(** mod.rs:209-212 [VpxFile::read_gamedata] *)
Definition file_read_gamedata (checked : bool) (f : cfile) : res GameData :=
  version <~ read_version up f ;; read_gamedata checked version f.
Definition locked_counter (g : GameData) : Z := match gt_locked (gd_tail g) with Some n => w32_to_Z n | None => 0 end.
Definition set_locked_counter (n : Z) (g : GameData) : GameData := set_gd_tail (set_gt_locked (Some (Z_to_w32 n)) (gd_tail g)) g.
(** mod.rs:232-234 [is_locked] *)
Definition file_is_locked (checked : bool) (f : cfile) : res bool :=
  g <~ file_read_gamedata checked f ;; Ok (Z.odd (locked_counter g)).
(** mod.rs:242-251 [lock], 259-268 [unlock] *)
Definition file_lock (checked : bool) (f : cfile) : res (bool * cfile) :=
  g <~ file_read_gamedata checked f ;;
  if Z.odd (locked_counter g) then Ok (false, f) else
  f <~ file_write_gamedata checked (set_locked_counter (locked_counter g + 1) g) f ;; Ok (true, f).
Definition file_unlock (checked : bool) (f : cfile) : res (bool * cfile) :=
  g <~ file_read_gamedata checked f ;;
  if negb (Z.odd (locked_counter g)) then Ok (false, f) else
  f <~ file_write_gamedata checked (set_locked_counter (locked_counter g + 1) g) f ;; Ok (true, f).
(** mod.rs:534-551 [importvbs], with the content of the script file *)
Definition import_script (checked : bool) (script : rstring) (f : cfile) : res cfile :=
  version <~ read_version up f ;;
  g <~ read_gamedata checked version f ;;
  f <~ write_game_data (GameData_set_code script g) version f ;;
  mac <~ generate_mac checked f ;;
  write_mac mac f.
(** mod.rs:505-525 [extractvbs], 776-779 [extract_script]: the text written to the script file *)
Definition extract_script (checked : bool) (f : cfile) : res rstring :=
  g <~ file_read_gamedata checked f ;; Ok (swe_string (gt_code (gd_tail g))).
End VpxIO.

(** The table information (src/vpx/tableinfo.rs) and the file version (src/vpx/version.rs). *)
From Verif Require Import Base Text Biff Image Sound Cfb.

(** tableinfo.rs:15-30.  The hash map of the properties is a list of keys and values without repeated keys; its order is the
    order in which the map happens to be iterated. *)
Record TableInfo : Type := mkTableInfo {
  ti_table_name : option rstring;
  ti_author_name : option rstring;
  ti_screenshot : option bytes;
  ti_table_blurb : option rstring;
  ti_table_rules : option rstring;
  ti_author_email : option rstring;
  ti_release_date : option rstring;
  ti_table_save_rev : option rstring;
  ti_table_version : option rstring;
  ti_author_website : option rstring;
  ti_table_save_date : option rstring;
  ti_table_description : option rstring;
  ti_properties : list (rstring * rstring) }.
(** tableinfo.rs:33-52 *)
Definition TableInfo_new : TableInfo := mkTableInfo None None None None None None None None None None None None [].
Definition set_ti_table_name x (t : TableInfo) := mkTableInfo x (ti_author_name t) (ti_screenshot t) (ti_table_blurb t) (ti_table_rules t) (ti_author_email t) (ti_release_date t) (ti_table_save_rev t) (ti_table_version t) (ti_author_website t) (ti_table_save_date t) (ti_table_description t) (ti_properties t).
Definition set_ti_author_name x (t : TableInfo) := mkTableInfo (ti_table_name t) x (ti_screenshot t) (ti_table_blurb t) (ti_table_rules t) (ti_author_email t) (ti_release_date t) (ti_table_save_rev t) (ti_table_version t) (ti_author_website t) (ti_table_save_date t) (ti_table_description t) (ti_properties t).
Definition set_ti_screenshot x (t : TableInfo) := mkTableInfo (ti_table_name t) (ti_author_name t) x (ti_table_blurb t) (ti_table_rules t) (ti_author_email t) (ti_release_date t) (ti_table_save_rev t) (ti_table_version t) (ti_author_website t) (ti_table_save_date t) (ti_table_description t) (ti_properties t).
Definition set_ti_table_blurb x (t : TableInfo) := mkTableInfo (ti_table_name t) (ti_author_name t) (ti_screenshot t) x (ti_table_rules t) (ti_author_email t) (ti_release_date t) (ti_table_save_rev t) (ti_table_version t) (ti_author_website t) (ti_table_save_date t) (ti_table_description t) (ti_properties t).
Definition set_ti_table_rules x (t : TableInfo) := mkTableInfo (ti_table_name t) (ti_author_name t) (ti_screenshot t) (ti_table_blurb t) x (ti_author_email t) (ti_release_date t) (ti_table_save_rev t) (ti_table_version t) (ti_author_website t) (ti_table_save_date t) (ti_table_description t) (ti_properties t).
Definition set_ti_author_email x (t : TableInfo) := mkTableInfo (ti_table_name t) (ti_author_name t) (ti_screenshot t) (ti_table_blurb t) (ti_table_rules t) x (ti_release_date t) (ti_table_save_rev t) (ti_table_version t) (ti_author_website t) (ti_table_save_date t) (ti_table_description t) (ti_properties t).
Definition set_ti_release_date x (t : TableInfo) := mkTableInfo (ti_table_name t) (ti_author_name t) (ti_screenshot t) (ti_table_blurb t) (ti_table_rules t) (ti_author_email t) x (ti_table_save_rev t) (ti_table_version t) (ti_author_website t) (ti_table_save_date t) (ti_table_description t) (ti_properties t).
Definition set_ti_table_save_rev x (t : TableInfo) := mkTableInfo (ti_table_name t) (ti_author_name t) (ti_screenshot t) (ti_table_blurb t) (ti_table_rules t) (ti_author_email t) (ti_release_date t) x (ti_table_version t) (ti_author_website t) (ti_table_save_date t) (ti_table_description t) (ti_properties t).
Definition set_ti_table_version x (t : TableInfo) := mkTableInfo (ti_table_name t) (ti_author_name t) (ti_screenshot t) (ti_table_blurb t) (ti_table_rules t) (ti_author_email t) (ti_release_date t) (ti_table_save_rev t) x (ti_author_website t) (ti_table_save_date t) (ti_table_description t) (ti_properties t).
Definition set_ti_author_website x (t : TableInfo) := mkTableInfo (ti_table_name t) (ti_author_name t) (ti_screenshot t) (ti_table_blurb t) (ti_table_rules t) (ti_author_email t) (ti_release_date t) (ti_table_save_rev t) (ti_table_version t) x (ti_table_save_date t) (ti_table_description t) (ti_properties t).
Definition set_ti_table_save_date x (t : TableInfo) := mkTableInfo (ti_table_name t) (ti_author_name t) (ti_screenshot t) (ti_table_blurb t) (ti_table_rules t) (ti_author_email t) (ti_release_date t) (ti_table_save_rev t) (ti_table_version t) (ti_author_website t) x (ti_table_description t) (ti_properties t).
Definition set_ti_table_description x (t : TableInfo) := mkTableInfo (ti_table_name t) (ti_author_name t) (ti_screenshot t) (ti_table_blurb t) (ti_table_rules t) (ti_author_email t) (ti_release_date t) (ti_table_save_rev t) (ti_table_version t) (ti_author_website t) (ti_table_save_date t) x (ti_properties t).
Definition set_ti_properties x (t : TableInfo) := mkTableInfo (ti_table_name t) (ti_author_name t) (ti_screenshot t) (ti_table_blurb t) (ti_table_rules t) (ti_author_email t) (ti_release_date t) (ti_table_save_rev t) (ti_table_version t) (ti_author_website t) (ti_table_save_date t) (ti_table_description t) x.

(** [HashMap::insert] *)
Fixpoint map_insert {A} (k : rstring) (v : A) (m : list (rstring * A)) : list (rstring * A) :=
  match m with
  | [] => [(k, v)]
  | (k', v') :: m' => if rstring_eqb k k' then (k', v) :: m' else (k', v') :: map_insert k v m'
  end.

Definition GameStg : rstring := lit "GameStg".
Definition TableInfoStg : rstring := lit "TableInfo".

Section TableInfoIO.
Variable up : N -> N.
(** The order in which [read_storage] yields the entries: an arbitrary function. *)
Variable order : list (rstring * node) -> list (rstring * node).

Definition write_info (name : string) (d : option bytes) (f : cfile) : res cfile :=
  match d with Some d => cf_store up true [TableInfoStg; lit name] (Ok d) f | None => Ok f end.
(** tableinfo.rs:306-314 [write_stream_string], 326-333 [write_stream_binary] *)
Definition write_info_string (name : string) (s : option rstring) (f : cfile) : res cfile :=
  write_info name (option_map encode_utf16le s) f.
(** tableinfo.rs:198-200 *)
Fixpoint write_properties (ps : list (rstring * rstring)) (f : cfile) : res cfile :=
  match ps with
  | [] => Ok f
  | (k, v) :: ps' => p <~ joined_chain TableInfoStg k ;; f1 <~ cf_store up true p (Ok (encode_utf16le v)) f ;; write_properties ps' f1
  end.
(** tableinfo.rs:61-203 [write_tableinfo] *)
Definition write_tableinfo (t : TableInfo) (f : cfile) : res cfile :=
  f <~ cf_create_storage up [TableInfoStg] f ;;
  f <~ write_info_string "TableName" (ti_table_name t) f ;;
  f <~ write_info_string "AuthorName" (ti_author_name t) f ;;
  f <~ write_info "Screenshot" (ti_screenshot t) f ;;
  f <~ write_info_string "TableBlurb" (ti_table_blurb t) f ;;
  f <~ write_info_string "TableRules" (ti_table_rules t) f ;;
  f <~ write_info_string "AuthorEmail" (ti_author_email t) f ;;
  f <~ write_info_string "ReleaseDate" (ti_release_date t) f ;;
  f <~ write_info_string "TableSaveRev" (ti_table_save_rev t) f ;;
  f <~ write_info_string "TableVersion" (ti_table_version t) f ;;
  f <~ write_info_string "AuthorWebSite" (ti_author_website t) f ;;
  f <~ write_info_string "TableSaveDate" (ti_table_save_date t) f ;;
  f <~ write_info_string "TableDescription" (ti_table_description t) f ;;
  write_properties (ti_properties t) f.

(** tableinfo.rs:229-281: one stream of the storage *)
Definition read_info (name : rstring) (d : bytes) (t : TableInfo) : res TableInfo :=
  let str := decode_utf16le d in
  if rstring_eqb name (lit "TableName") then s <~ str ;; Ok (set_ti_table_name (Some s) t) else
  if rstring_eqb name (lit "AuthorName") then s <~ str ;; Ok (set_ti_author_name (Some s) t) else
  if rstring_eqb name (lit "Screenshot") then Ok (set_ti_screenshot (Some d) t) else
  if rstring_eqb name (lit "TableBlurb") then s <~ str ;; Ok (set_ti_table_blurb (Some s) t) else
  if rstring_eqb name (lit "TableRules") then s <~ str ;; Ok (set_ti_table_rules (Some s) t) else
  if rstring_eqb name (lit "AuthorEmail") then s <~ str ;; Ok (set_ti_author_email (Some s) t) else
  if rstring_eqb name (lit "ReleaseDate") then s <~ str ;; Ok (set_ti_release_date (Some s) t) else
  if rstring_eqb name (lit "TableSaveRev") then s <~ str ;; Ok (set_ti_table_save_rev (Some s) t) else
  if rstring_eqb name (lit "TableVersion") then s <~ str ;; Ok (set_ti_table_version (Some s) t) else
  if rstring_eqb name (lit "AuthorWebSite") then s <~ str ;; Ok (set_ti_author_website (Some s) t) else
  if rstring_eqb name (lit "TableSaveDate") then s <~ str ;; Ok (set_ti_table_save_date (Some s) t) else
  if rstring_eqb name (lit "TableDescription") then s <~ str ;; Ok (set_ti_table_description (Some s) t) else
  s <~ str ;; Ok (set_ti_properties (map_insert name s (ti_properties t)) t).
Fixpoint read_infos (es : list (rstring * node)) (t : TableInfo) : res TableInfo :=
  match es with
  | [] => Ok t
  | (_, Storage) :: es' => read_infos es' t
  | (n, Stream d) :: es' => t <~ read_info n d t ;; read_infos es' t
  end.
(** tableinfo.rs:210-285 [read_tableinfo]; [read_storage(..).unwrap()] panics without the storage *)
Definition read_tableinfo (f : cfile) : res TableInfo :=
  es <~ unwrap (cf_read_storage up [TableInfoStg] f) ;; read_infos (order es) TableInfo_new.

(** version.rs:77-97 [write_version]; 71-75, 87-90 [read_version]: the first four bytes of the stream, an error when there are fewer *)
Definition write_version (v : u32) (f : cfile) : res cfile := cf_store up true [GameStg; lit "Version"] (Ok (w32_bytes v)) f.
Definition read_version (f : cfile) : res u32 :=
  d <~ cf_get up [GameStg; lit "Version"] f ;;
  match d with b0 :: b1 :: b2 :: b3 :: _ => Ok (W32 b0 b1 b2 b3) | _ => Err end.
End TableInfoIO.

(** version.rs:23-25 [to_u32_string] *)
Definition Version_text (v : u32) : rstring := dec_text (Z.to_N (w32_to_Z v)).
(** version.rs:17-21 [parse]: [str::parse::<u32>]: an optional plus sign and at least one decimal digit; too large numbers are errors *)
Fixpoint parse_digits (acc : Z) (s : rstring) : res Z :=
  match s with
  | [] => Ok acc
  | c :: s' => if ((48 <=? c) && (c <=? 57))%N
               then let n := acc * 10 + Z.of_N (c - 48) in if n <? two32 then parse_digits n s' else Err
               else Err
  end.
Definition Version_parse (s : rstring) : res u32 :=
  let digits := match s with 43%N :: s' => s' | _ => s end in
  match digits with [] => Err | _ => n <~ parse_digits 0 digits ;; Ok (Z_to_w32 n) end.

(** What the streams of a table file are: the specification used by the statements about whole tables. *)
From Verif Require Import Base Text Image Sound Cfb TableInfo Vpx SpecBiff SpecStructs.

(** A name that stands for itself as a path: not empty, not a dot name, without a slash. *)
Definition plain_component (s : rstring) : Prop := s <> [] /\ s <> lit "." /\ s <> lit ".." /\ ~ In 47%N s.
(** A name for a stream: a plain name without backslash, colon and exclamation mark, of at most 31 UTF-16 units. *)
Definition stream_name (s : rstring) : Prop :=
  plain_component s /\ ~ In 92%N s /\ ~ In 58%N s /\ ~ In 33%N s /\ zlen (encode_utf16le s) <= 62.
(** Names that differ in upper and lower case only ([up] is the upper case of characters outside ASCII). *)
Definition same_name (up : N -> N) (a b : rstring) : Prop := map (fold_char up) a = map (fold_char up) b.
(** The names with a meaning of their own. *)
Definition reserved_names : list string :=
  ["TableName"; "AuthorName"; "Screenshot"; "TableBlurb"; "TableRules"; "AuthorEmail"; "ReleaseDate"; "TableSaveRev"; "TableVersion";
   "AuthorWebSite"; "TableSaveDate"; "TableDescription"]%string.

(** The fields of the table information with the names and contents of their streams. *)
Definition info_fields (t : TableInfo) : list (string * option bytes) :=
  let str := option_map encode_utf16le in
  [("TableName", str (ti_table_name t)); ("AuthorName", str (ti_author_name t)); ("Screenshot", ti_screenshot t);
   ("TableBlurb", str (ti_table_blurb t)); ("TableRules", str (ti_table_rules t)); ("AuthorEmail", str (ti_author_email t));
   ("ReleaseDate", str (ti_release_date t)); ("TableSaveRev", str (ti_table_save_rev t)); ("TableVersion", str (ti_table_version t));
   ("AuthorWebSite", str (ti_author_website t)); ("TableSaveDate", str (ti_table_save_date t));
   ("TableDescription", str (ti_table_description t))]%string.
Definition field_entry (e : string * option bytes) : list (rstring * bytes) :=
  match snd e with Some d => [(lit (fst e), d)] | None => [] end.
(** All streams of the table information. *)
Definition info_entries (t : TableInfo) : list (rstring * bytes) :=
  flat_map field_entry (info_fields t) ++ map (fun e => (fst e, encode_utf16le (snd e))) (ti_properties t).

Definition text_ok (s : option rstring) : Prop := match s with Some s => Forall scalar_value s | None => True end.
(** Table information that can be stored: Unicode strings, and property names that are stream names, different from each other and
    from the reserved names. *)
Definition info_fits (up : N -> N) (t : TableInfo) : Prop :=
  text_ok (ti_table_name t) /\ text_ok (ti_author_name t) /\ text_ok (ti_table_blurb t) /\ text_ok (ti_table_rules t) /\
  text_ok (ti_author_email t) /\ text_ok (ti_release_date t) /\ text_ok (ti_table_save_rev t) /\ text_ok (ti_table_version t) /\
  text_ok (ti_author_website t) /\ text_ok (ti_table_save_date t) /\ text_ok (ti_table_description t) /\
  Forall (fun e => stream_name (fst e) /\ Forall scalar_value (snd e) /\
                   forall n, In n reserved_names -> ~ same_name up (fst e) (lit n)) (ti_properties t) /\
  NoDup (map (fun e => map (fold_char up) (fst e)) (ti_properties t)).

(** The value of a key in a map. *)
Fixpoint value_at {A} (k : rstring) (m : list (rstring * A)) : option A :=
  match m with [] => None | (k', v) :: m' => if list_eq_dec N.eq_dec k k' then Some v else value_at k m' end.
(** The same fields, and the same properties as maps. *)
Definition same_info (a b : TableInfo) : Prop :=
  ti_table_name a = ti_table_name b /\ ti_author_name a = ti_author_name b /\ ti_screenshot a = ti_screenshot b /\
  ti_table_blurb a = ti_table_blurb b /\ ti_table_rules a = ti_table_rules b /\ ti_author_email a = ti_author_email b /\
  ti_release_date a = ti_release_date b /\ ti_table_save_rev a = ti_table_save_rev b /\ ti_table_version a = ti_table_version b /\
  ti_author_website a = ti_author_website b /\ ti_table_save_date a = ti_table_save_date b /\
  ti_table_description a = ti_table_description b /\ forall k, value_at k (ti_properties a) = value_at k (ti_properties b).

(** ** What the message authentication code covers *)
(** A stream of records: tags and contents without sizes, and the end marker. *)
Definition hashed_records (rs : list (string * bytes)) : bytes := flat_map (fun r => tag4 (fst r) ++ snd r) rs.
Definition hashed_stream (rs : list (string * bytes)) : bytes := hashed_records rs ++ tag4 "ENDB".
(** Game data: of the script, the text without its length. *)
Definition hashed_game_data (before : list (string * bytes)) (script : bytes) (after : list (string * bytes)) : bytes :=
  hashed_records before ++ (tag4 "CODE" ++ script) ++ hashed_records after ++ tag4 "ENDB".
(** The content of a stream; nothing when there is none. *)
Definition content (up : N -> N) (p : cpath) (f : cfile) : bytes := match cf_node up p f with Some (Stream d) => d | _ => [] end.
Definition tag_records (tags : list rstring) : list (string * bytes) := map (fun s => ("CUST"%string, string_payload s)) tags.
(** The collections of a file are the streams GameStg/Collection0, GameStg/Collection1, .. up to the first that does not exist. *)
Fixpoint collections_are (up : N -> N) (f : cfile) (i : N) (rss : list (list (string * bytes))) : Prop :=
  match rss with
  | [] => cf_node up [GameStg; lit "Collection" ++ dec_text i] f = None
  | rs :: rss' => cf_node up [GameStg; lit "Collection" ++ dec_text i] f = Some (Stream (stream_bytes rs)) /\ collections_are up f (i + 1) rss'
  end.
(** A file whose hashed streams are well-formed: [tags] are its custom info tags (when it has any), [collections] the records of
    its collections. *)
Definition hashable (up : N -> N) (f : cfile) (tags : option (list rstring)) (collections : list (list (string * bytes))) : Prop :=
  cf_node up [GameStg; lit "Version"] f <> Some Storage /\
  (forall n, cf_node up [TableInfoStg; n] f <> Some Storage) /\
  cf_node up [GameStg; lit "CustomInfoTags"] f = option_map (fun l => Stream (stream_bytes (tag_records l))) tags /\
  option_all (Forall (fun s => string_fits s /\ plain_component s)) tags /\
  collections_are up f 0 collections /\
  Forall (fun rs => Forall valid_record rs /\ ~ In "CODE"%string (map fst rs)) collections.
(** The bytes that are hashed, in order. *)
Definition hashed_names : list string :=
  ["TableName"; "AuthorName"; "TableVersion"; "ReleaseDate"; "AuthorEmail"; "AuthorWebSite"; "TableBlurb"; "TableDescription";
   "TableRules"; "Screenshot"]%string.
Definition hashed_tags (up : N -> N) (f : cfile) (tags : list rstring) : bytes :=
  hashed_stream (tag_records tags) ++ flat_map (fun t => content up [TableInfoStg; t] f) tags.
Definition hashed_file (up : N -> N) (f : cfile) (tags : option (list rstring)) (gamedata : bytes) (collections : list (list (string * bytes))) : bytes :=
  list_byte_of_string "Visual Pinball" ++ content up [GameStg; lit "Version"] f ++
  flat_map (fun n => content up [TableInfoStg; lit n] f) hashed_names ++
  match tags with Some l => hashed_tags up f l | None => [] end ++
  gamedata ++ flat_map hashed_stream collections.

(** ** Editing a table file in place *)
(** Two paths to the same entry. *)
Definition same_path (up : N -> N) (a b : cpath) : Prop := Forall2 (same_name up) a b.
(** A table file that can be edited: it has a GameStg storage with a version, game data and hashable streams, and MAC is not a
    storage. *)
Definition editable (up : N -> N) (f : cfile) (version : u32) (tags : option (list rstring)) (collections : list (list (string * bytes)))
    (gamedata : bytes) : Prop :=
  cf_node up [GameStg] f = Some Storage /\ cf_node up [GameStg; lit "Version"] f = Some (Stream (w32_bytes version)) /\
  cf_node up [GameStg; lit "GameData"] f = Some (Stream gamedata) /\ cf_node up [GameStg; lit "MAC"] f <> Some Storage /\
  hashable up f tags collections.
(** [after] is [before] with other game data and another MAC; everything else is as it was, and there are no new entries except
    perhaps the MAC. *)
Definition only_game_data_changed (up : N -> N) (before after : cfile) (gamedata mac : bytes) : Prop :=
  cf_node up [GameStg; lit "GameData"] after = Some (Stream gamedata) /\
  cf_node up [GameStg; lit "MAC"] after = Some (Stream mac) /\
  (forall q, ~ same_path up q [GameStg; lit "GameData"] -> ~ same_path up q [GameStg; lit "MAC"] -> cf_node up q after = cf_node up q before) /\
  (map fst after = map fst before \/
   cf_node up [GameStg; lit "MAC"] before = None /\ map fst after = map fst before ++ [[GameStg; lit "MAC"]]).
(** Locking and unlocking: the counter is odd while the table is locked; an operation that has nothing to do does nothing. *)
Inductive lock_op := OpLock | OpUnlock.
Definition lock_step (o : lock_op) (counter : Z) : bool * Z :=
  let odd := Z.odd counter in
  if (match o with OpLock => odd | OpUnlock => negb odd end) then (false, counter) else (true, (counter + 1) mod 2 ^ 32).
Fixpoint lock_history (os : list lock_op) (counter : Z) : list bool * Z :=
  match os with
  | [] => ([], counter)
  | o :: os' => let (b, c) := lock_step o counter in let (bs, c') := lock_history os' c in (b :: bs, c')
  end.
(** Running the operations on a file *)
Fixpoint run_locks (up : N -> N) (md2 : bytes -> bytes) (checked : bool) (os : list lock_op) (f : cfile) : res (list bool * cfile) :=
  match os with
  | [] => Ok ([], f)
  | o :: os' =>
      r <~ match o with OpLock => file_lock up md2 checked f | OpUnlock => file_unlock up md2 checked f end ;;
      rs <~ run_locks up md2 checked os' (snd r) ;;
      Ok (fst r :: fst rs, snd rs)
  end.

(** ** Decimal numbers *)
Definition digits (s : rstring) : Prop := s <> [] /\ Forall (fun c => (48 <= c <= 57)%N) s.
Definition decimal (s : rstring) : Z := fold_left (fun n c => n * 10 + (Z.of_N c - 48)) s 0.

(** ** Files without duplicate entries and without table information *)
Definition distinct_paths (up : N -> N) (f : cfile) : Prop := NoDup (map (fun e => map (map (fold_char up)) (fst e)) f).
Definition outside (up : N -> N) (name : rstring) (f : cfile) : Prop :=
  Forall (fun e => match fst e with c :: _ => ~ same_name up c name | [] => False end) f.
(** The streams that are hashed as they are. *)
Definition hashed_raw (tags : option (list rstring)) : list cpath :=
  [GameStg; lit "Version"] :: map (fun n => [TableInfoStg; lit n]) hashed_names ++
  match tags with Some l => map (fun t => [TableInfoStg; t]) l | None => [] end.

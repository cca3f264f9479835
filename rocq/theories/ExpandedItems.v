(** The files of the extracted game items: src/vpx/expanded/gameitems.rs and the part of src/vpx/expanded/primitives.rs that
    names, writes and finds files.

    What is written into the files is opaque here: an item comes with the text of its JSON file and, for a primitive, with the
    contents of its mesh files.  Left out: derived meshes (a debugging option; their names contain '-', which no item name does). *)
From Verif Require Import Base Text Image Sound Cfb FileSystem.

Inductive mesh_format : Set := FmtObj | FmtGlb | FmtGltf.
(** primitives.rs:788-792 *)
Definition format_extension (m : mesh_format) : rstring :=
  match m with FmtObj => lit "obj" | FmtGlb => lit "glb" | FmtGltf => lit "gltf" end.

(** What is written for a mesh or a frame, given the name of the file without its extension: the contents of the file and of the .bin file
    that a .gltf file refers to by its name (gltf.rs:83-101) *)
Definition mesh_data : Type := rstring -> bytes * bytes.
Record xitem : Type := mkXitem {
  xi_type : rstring;                         (* [type_name()] *)
  xi_name : rstring;                         (* [name()] *)
  xi_json : bytes;                           (* the item as JSON *)
  xi_mesh : option (mesh_data * list mesh_data) }.   (* a primitive with a mesh: the mesh and its animation frames *)

Section Items.
(** [str::to_lowercase] and [char::is_alphanumeric] of the standard library *)
Variable lower : rstring -> rstring.
Variable alphanumeric : uchar -> bool.
(** Whether a JSON text is that of a primitive *)
Variable json_is_primitive : bytes -> bool.

(** gameitems.rs:135-143 [gameitem_filename_stem], before [ensure_unique] *)
Definition wanted_name (i : xitem) : rstring :=
  let name := match xi_name i with [] => lit "unnamed" | n => n end in
  xi_type i ++ lit "." ++ map (fun c => if alphanumeric c then c else 95%N) name.

Definition contains (used : list rstring) (s : rstring) : bool := existsb (rstring_eqb s) used.
(** gameitems.rs:50-60: the loop of [ensure_unique].  (The counter is an [i32]; a table would need 2^31 items to overflow it.) *)
Fixpoint unique_loop (fuel : nat) (used : list rstring) (file_name : rstring) (counter : N) : res rstring :=
  match fuel with
  | O => OutOfFuel
  | S fuel' =>
      let unique_name := file_name ++ lit "__" ++ dec_text counter in
      if contains used (lower unique_name) then unique_loop fuel' used file_name (counter + 1) else Ok unique_name
  end.
(** gameitems.rs:41-62 [ensure_unique]; the second component is the set of used names afterwards *)
Definition ensure_unique (used : list rstring) (file_name : rstring) : res (rstring * list rstring) :=
  if negb (contains used (lower file_name)) then Ok (file_name, lower file_name :: used)
  else n <~ unique_loop (S (List.length used)) used file_name 1 ;; Ok (n, lower n :: used).
(** gameitems.rs:77-78: the names of all items, in order *)
Fixpoint file_names (used : list rstring) (items : list xitem) : res (list rstring) :=
  match items with
  | [] => Ok []
  | i :: items' =>
      '(n, used') <~ ensure_unique used (wanted_name i) ;; ns <~ file_names used' items' ;; Ok (n :: ns)
  end.

(** primitives.rs:783-794 [animation_frame_file_name] *)
Definition frame_file_name (base : rstring) (n : nat) (m : mesh_format) : rstring :=
  base ++ lit "_anim_" ++ dec_text (N.of_nat n) ++ lit "." ++ format_extension m.
Definition json_file_name (name : rstring) : rstring := name ++ lit ".json".
Definition mesh_file_name (name : rstring) (m : mesh_format) : rstring := name ++ lit "." ++ format_extension m.
Fixpoint strip_suffixes (fuel : nat) (suffix s : rstring) : rstring :=
  match fuel with
  | O => s
  | S fuel' =>
      let n := (List.length s - List.length suffix)%nat in
      if rstring_eqb (skipn n s) suffix && (List.length suffix <=? List.length s)%nat then strip_suffixes fuel' suffix (firstn n s) else s
  end.
(** [str::trim_end_matches(".json")]: all of them *)
Definition trim_json (s : rstring) : rstring := strip_suffixes (List.length s) (lit ".json") s.

(** gltf.rs:83-91 *)
Definition bin_file_name (stem : rstring) : rstring := stem ++ lit ".bin".
(** The file of a mesh, and for glTF the one beside it *)
Definition mesh_file_pair (m : mesh_format) (stem : rstring) (d : mesh_data) : files :=
  (mesh_file_name stem m, fst (d stem)) :: match m with FmtGltf => [(bin_file_name stem, snd (d stem))] | _ => [] end.
(** primitives.rs:607-647; a stem is a file name without its extension *)
Definition frame_stem (base : rstring) (n : nat) : rstring := base ++ lit "_anim_" ++ dec_text (N.of_nat n).
Fixpoint frame_files (base : rstring) (n : nat) (m : mesh_format) (frames : list mesh_data) : files :=
  match frames with
  | [] => []
  | d :: frames' => mesh_file_pair m (frame_stem base n) d ++ frame_files base (S n) m frames'
  end.
(** gameitems.rs:105-115, primitives.rs:58-110: the files written for one item whose file name is [name] *)
Definition item_files (m : mesh_format) (name : rstring) (i : xitem) : files :=
  (json_file_name name, xi_json i) ::
  match xi_mesh i with
  | Some (d, frames) => mesh_file_pair m name d ++ frame_files (trim_json name) 0 m frames
  | None => []
  end.
(** gameitems.rs:65-133 [write_gameitems]: the index (of which only the file names matter here) and the files to be written into
    the directory, which holds [dir] before; items are written in parallel, so the files may be written in any order *)
Definition write_gameitems (m : mesh_format) (items : list xitem) (dir : files) : res (list rstring * list files) :=
  names <~ file_names [] items ;;
  if existsb (fun n => match hget (json_file_name n) dir with Some _ => true | None => false end) names then Err
  else Ok (map json_file_name names, map (fun e => item_files m (fst e) (snd e)) (combine names items)).
(** The directory after writing files one after the other *)
Definition write_all (fs dir : files) : files := fold_left (fun d e => hinsert (fst e) (snd e) d) fs dir.

(** primitives.rs:734-745: frames are read until one does not exist *)
Fixpoint read_frames (fuel : nat) (base : rstring) (n : nat) (m : mesh_format) (dir : files) : res (list bytes) :=
  match fuel with
  | O => OutOfFuel
  | S fuel' =>
      match hget (frame_file_name base n m) dir with
      | Some d => ds <~ read_frames fuel' base (S n) m dir ;; Ok (d :: ds)
      | None => Ok []
      end
  end.
Definition first_format (name : mesh_format -> rstring) (dir : files) : option mesh_format :=
  match hget (name FmtObj) dir, hget (name FmtGlb) dir, hget (name FmtGltf) dir with
  | Some _, _, _ => Some FmtObj
  | _, Some _, _ => Some FmtGlb
  | _, _, Some _ => Some FmtGltf
  | _, _, _ => None
  end.
(** What is read for an item: its JSON, its mesh, its frames *)
Definition read_item : Type := bytes * option (mesh_format * bytes) * option (mesh_format * list bytes).
(** gameitems.rs:178-202 [read_game_item], primitives.rs:687-781 [read_gameitem_binaries] *)
Definition read_game_item (file_name : rstring) (dir : files) : res read_item :=
  match hget file_name dir with
  | None => Err
  | Some json =>
      if json_is_primitive json then
        let base := trim_json file_name in
        let mesh := match first_format (mesh_file_name base) dir with
                    | Some m => option_map (pair m) (hget (mesh_file_name base m) dir)
                    | None => None
                    end in
        match first_format (frame_file_name base 0) dir with
        | Some m => frames <~ read_frames (S (List.length dir)) base 0 m dir ;; Ok (json, mesh, Some (m, frames))
        | None => Ok (json, mesh, None)
        end
      else Ok (json, None, None)
  end.
(** gameitems.rs:146-175 [read_gameitems] *)
Fixpoint read_gameitems (index : list rstring) (dir : files) : res (list read_item) :=
  match index with
  | [] => Ok []
  | n :: index' => i <~ read_game_item n dir ;; is <~ read_gameitems index' dir ;; Ok (i :: is)
  end.
End Items.

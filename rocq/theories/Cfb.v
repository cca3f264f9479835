(** Compound files, as far as this crate uses them: the functions of the external crate cfb 0.14 (not part of /repo; its
    behaviour is taken from its documentation) that src/vpx/mod.rs, src/vpx/tableinfo.rs and src/vpx/version.rs call.

    A compound file is a tree of storages and streams; it is represented by the list of its entries, each with the names
    leading to it; the root storage is implied.  Sector allocation, size limits of the container and I/O errors of the
    underlying file are left out. *)
From Verif Require Import Base Text Image Sound.

Inductive node : Type := Storage | Stream (d : bytes).
Definition cpath : Type := list rstring.
Definition cfile : Type := list (cpath * node).

(** Decimal notation, as in [format!("{index}")] *)
Fixpoint dec_digits (fuel : nat) (n : N) : rstring :=
  match fuel with
  | O => []
  | S fuel' => if (n <? 10)%N then [(48 + n)%N] else dec_digits fuel' (n / 10) ++ [(48 + n mod 10)%N]
  end.
(** As many steps as [n] has binary digits are enough: see [dec_text_value] *)
Definition dec_text (n : N) : rstring := dec_digits (S (N.to_nat (N.log2 n))) n.

(** cfb: [validate_name]: at most 31 UTF-16 units and none of the characters / \ : ! *)
Definition valid_stream_name (s : rstring) : bool :=
  (zlen (flat_map char_utf16 s) <=? 31) &&
  forallb (fun c => negb ((c =? 47) || (c =? 92) || (c =? 58) || (c =? 33)))%N s.

(** cfb: [name_chain_from_path], on the components of a path: empty ones and "." do not count, ".." removes the name before it
    and is an error at the root.  Simplification: Unix separators only. *)
Fixpoint name_chain (acc : list rstring) (cs : list rstring) : res cpath :=
  match cs with
  | [] => Ok (rev acc)
  | c :: cs' =>
      if rstring_eqb c [] || rstring_eqb c [dot] then name_chain acc cs'
      else if rstring_eqb c [dot; dot] then match acc with [] => Err | _ :: acc' => name_chain acc' cs' end
      else name_chain (c :: acc) cs'
  end.
(** The names for [Path::new("/" + dir).join(key)]: an absolute key replaces the directory *)
Definition joined_chain (dir key : rstring) : res cpath :=
  match key with
  | 47%N :: _ => name_chain [] (split_on slash key)
  | _ => name_chain [dir] (split_on slash key)
  end.
(** The names for the path [format!("{dir}/{key}")] *)
Definition formatted_chain (dir key : rstring) : res cpath := name_chain [dir] (split_on slash key).

Definition ascii_upper_char (c : N) : N := if ((97 <=? c) && (c <=? 122))%N then (c - 32)%N else c.

Section Names.
(** The upper case of a character outside ASCII, by the table of the cfb crate: an arbitrary function. *)
Variable up : N -> N.

(** cfb: [compare_names]: two names are the same entry when they agree in upper case *)
Definition fold_char (c : N) : N := if (c <? 128)%N then ascii_upper_char c else up c.
Definition fold_name (s : rstring) : rstring := map fold_char s.
Definition name_eqb (a b : rstring) : bool := rstring_eqb (fold_name a) (fold_name b).
Fixpoint path_eqb (a b : cpath) : bool :=
  match a, b with
  | [], [] => true
  | x :: a', y :: b' => name_eqb x y && path_eqb a' b'
  | _, _ => false
  end.

Fixpoint cf_find (p : cpath) (f : cfile) : option node :=
  match f with
  | [] => None
  | (q, n) :: f' => if path_eqb p q then Some n else cf_find p f'
  end.
(** The entry at a path; the root is a storage *)
Definition cf_node (p : cpath) (f : cfile) : option node :=
  match p with [] => Some Storage | _ => cf_find p f end.
(** cfb: [exists], [is_stream] *)
Definition cf_exists (p : cpath) (f : cfile) : bool := match cf_node p f with Some _ => true | None => false end.
Definition cf_is_stream (p : cpath) (f : cfile) : bool := match cf_node p f with Some (Stream _) => true | _ => false end.
(** cfb: [open_stream] followed by [read_to_end] *)
Definition cf_get (p : cpath) (f : cfile) : res bytes :=
  match cf_node p f with Some (Stream d) => Ok d | _ => Err end.
(** Replacing the content of the entry at [p] *)
Fixpoint cf_set (p : cpath) (n : node) (f : cfile) : cfile :=
  match f with
  | [] => []
  | (q, m) :: f' => if path_eqb p q then (q, n) :: f' else (q, m) :: cf_set p n f'
  end.
(** A new entry: the parent must exist and the name must be valid.  (The crate does not check for a parent that is a stream.) *)
Definition cf_insert (p : cpath) (n : node) (f : cfile) : res cfile :=
  match cf_node (removelast p) f with
  | None => Err
  | Some (Stream _) => Panic
  | Some Storage => if valid_stream_name (last p []) then Ok (f ++ [(p, n)]) else Err
  end.
(** cfb: [create_storage] *)
Definition cf_create_storage (p : cpath) (f : cfile) : res cfile :=
  if cf_exists p f then Err else cf_insert p Storage f.
(** cfb: [create_stream] ([overwrite]) and [create_new_stream]: an empty stream; an existing one is truncated or refused *)
Definition cf_create_stream (overwrite : bool) (p : cpath) (f : cfile) : res cfile :=
  match cf_node p f with
  | Some Storage => Err
  | Some (Stream _) => if overwrite then Ok (cf_set p (Stream []) f) else Err
  | None => cf_insert p (Stream []) f
  end.
(** [let mut stream = comp.create_stream(path)?; let data = ..; stream.write_all(&data)] *)
Definition cf_store (overwrite : bool) (p : cpath) (d : res bytes) (f : cfile) : res cfile :=
  f1 <~ cf_create_stream overwrite p f ;; d <~ d ;; Ok (cf_set p (Stream d) f1).
(** cfb: [read_storage]: the entries directly in a storage, with their names, in some order *)
Definition cf_children (p : cpath) (f : cfile) : list (rstring * node) :=
  flat_map (fun e => match fst e with
                     | [] => []
                     | _ => if path_eqb p (removelast (fst e)) then [(last (fst e) [], snd e)] else []
                     end) f.
Definition cf_read_storage (p : cpath) (f : cfile) : res (list (rstring * node)) :=
  match cf_node p f with Some Storage => Ok (cf_children p f) | _ => Err end.
End Names.

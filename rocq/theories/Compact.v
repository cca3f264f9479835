(** Compacting a file on disk: src/vpx/mod.rs:316-355.

    The disk is a map from paths to contents.  A crash is the end of the process (or of [compact] by an error) between two of
    its steps; what was handed to the operating system before it is on the disk.  Losing power, where unsynchronised data can
    be lost, is not modelled: the code does not call [sync_all]. *)
From Verif Require Import Base Text Image Sound Cfb.

(** The content of a file: a compound file with these entries, or anything else (a compound file while it is being written
    included). *)
Inductive fcontent : Type := Whole (f : cfile) | Torn.
(** A path: directory and file name (a path without file name is a directory, which [cfb::open] refuses) *)
Definition dpath : Type := rstring * rstring.
Definition dpath_eqb (p q : dpath) : bool := rstring_eqb (fst p) (fst q) && rstring_eqb (snd p) (snd q).
Definition disk : Type := dpath -> option fcontent.
Definition dset (p : dpath) (c : option fcontent) (d : disk) : disk := fun q => if dpath_eqb p q then c else d q.

(** [Path::file_stem] of a file name: before the last dot, unless that is its first character *)
Definition file_stem (name : rstring) : rstring :=
  match after_last_dot name with
  | Some e => if zlen name =? zlen e + 1 then name else firstn (Z.to_nat (zlen name - zlen e - 1)) name
  | None => name
  end.
(** [Path::with_extension] *)
Definition with_extension (e : rstring) (p : dpath) : dpath := (fst p, file_stem (snd p) ++ [dot] ++ e).

Section Compact.
Variable up : N -> N.
(** cfb: [walk]: all entries in some order *)
Variable walk : cfile -> cfile.

(** mod.rs:331-340: storages are created as they are met (the root exists already); class ids are left out.  The path of an
    entry is put together from its names and taken apart again. *)
Fixpoint copy_storages (l : cfile) (g : cfile) : res cfile :=
  match l with
  | [] => Ok g
  | (p, Storage) :: l' => p <~ name_chain [] p ;; g <~ cf_create_storage up p g ;; copy_storages l' g
  | (_, Stream _) :: l' => copy_storages l' g
  end.
(** mod.rs:341-346 *)
Fixpoint copy_streams (f : cfile) (l : cfile) (g : cfile) : res cfile :=
  match l with
  | [] => Ok g
  | (p, Stream _) :: l' => p <~ name_chain [] p ;; d <~ cf_get up p f ;; g <~ cf_store up false p (Ok d) g ;; copy_streams f l' g
  | (_, Storage) :: l' => copy_streams f l' g
  end.
Definition copy (f : cfile) : res cfile :=
  g <~ copy_storages (walk f) [] ;; copy_streams f (walk f) g.

(** mod.rs:323-355 [compact_cfb]: the states of the disk after each step that changes it, and the result.  While the copy is
    written the temporary file stays [Torn], so these steps are one state. *)
Definition compact (p : dpath) (d : disk) : list disk * res unit :=
  match d p with
  | Some (Whole f) =>
      let out := with_extension (lit "compacting") p in
      (* OpenOptions::truncate(true).open(&out_path) *)
      let d1 := dset out (Some Torn) d in
      (* the file being read was truncated: what can be read from it now is not known *)
      if dpath_eqb out p then ([d; d1], Err) else
      match copy f with
      | Fail e => ([d; d1], Fail e)
      | Ok g =>
          (* duplicate.flush() *)
          let d2 := dset out (Some (Whole g)) d1 in
          (* remove_file(&in_path) *)
          let d3 := dset p None d2 in
          (* rename(&out_path, &in_path) *)
          let d4 := dset out None (dset p (d3 out) d3) in
          ([d; d1; d2; d3; d4], Ok tt)
      end
  (* cfb::open fails *)
  | _ => ([d], Err)
  end.
End Compact.

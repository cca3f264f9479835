(** The in-memory file system: src/filesystem.rs:65-236.

    The map is behind a lock that every call takes once, and a writer's own buffer is not shared, so any execution of any
    number of threads is a sequence of the operations below.  A [HashMap] is an association list without duplicate keys.
    Keys are the paths' texts ([to_string_lossy]); they are not normalised.  The lock is assumed not to be poisoned. *)
From Verif Require Import Base Sound.

Definition files : Type := list (rstring * bytes).
(** [HashMap::get], [remove], [insert] *)
Fixpoint hget (p : rstring) (m : files) : option bytes :=
  match m with
  | [] => None
  | (q, d) :: m' => if rstring_eqb p q then Some d else hget p m'
  end.
Fixpoint hremove (p : rstring) (m : files) : files :=
  match m with
  | [] => []
  | (q, d) :: m' => if rstring_eqb p q then m' else (q, d) :: hremove p m'
  end.
Fixpoint hinsert (p : rstring) (d : bytes) (m : files) : files :=
  match m with
  | [] => [(p, d)]
  | (q, e) :: m' => if rstring_eqb p q then (q, d) :: m' else (q, e) :: hinsert p d m'
  end.

(** filesystem.rs:137-141 [MemoryFileWriter]; a dropped one is [None].  Writers are numbered in the order of their creation. *)
Record memfs : Type := mkMemfs { mf_files : files; mf_writers : list (option (rstring * bytes)) }.
(** filesystem.rs:113-117 *)
Definition memfs_new : memfs := mkMemfs [] [].

Inductive fs_op : Type :=
| WriteFile (p : rstring) (d : bytes)
| CreateFile (p : rstring)
| WriterWrite (h : nat) (d : bytes)
| WriterFlush (h : nat)
| WriterDrop (h : nat)
| DeleteFile (p : rstring)
| Clear
| Rename (p q : rstring)
| CreateDirAll (p : rstring).

Fixpoint set_nth {A} (n : nat) (x : A) (l : list A) : list A :=
  match l, n with
  | [], _ => []
  | _ :: l', O => x :: l'
  | y :: l', S n' => y :: set_nth n' x l'
  end.
Definition writer (h : nat) (s : memfs) : option (rstring * bytes) :=
  match nth_error (mf_writers s) h with Some (Some w) => Some w | _ => None end.

(** The effect of one call.  (A writer that was dropped cannot be used any more in Rust: such a call does nothing here.) *)
Definition fs_step (s : memfs) (o : fs_op) : memfs :=
  match o with
  (* filesystem.rs:203-208 *)
  | WriteFile p d => mkMemfs (hinsert p d (mf_files s)) (mf_writers s)
  (* filesystem.rs:171-178, 229-231 *)
  | CreateFile p => mkMemfs (mf_files s) (mf_writers s ++ [Some (p, [])])
  (* filesystem.rs:144-147 *)
  | WriterWrite h d =>
      match writer h s with
      | Some (p, b) => mkMemfs (mf_files s) (set_nth h (Some (p, b ++ d)) (mf_writers s))
      | None => s
      end
  (* filesystem.rs:149-153 *)
  | WriterFlush h =>
      match writer h s with
      | Some (p, b) => mkMemfs (hinsert p b (mf_files s)) (mf_writers s)
      | None => s
      end
  (* filesystem.rs:156-161 *)
  | WriterDrop h =>
      match writer h s with
      | Some (p, b) => mkMemfs (hinsert p b (mf_files s)) (set_nth h None (mf_writers s))
      | None => s
      end
  (* filesystem.rs:131-134 *)
  | DeleteFile p => mkMemfs (hremove p (mf_files s)) (mf_writers s)
  (* filesystem.rs:126-129 *)
  | Clear => mkMemfs [] (mf_writers s)
  (* filesystem.rs:71-88 (test builds only) *)
  | Rename p q =>
      match hget p (mf_files s) with
      | Some d => mkMemfs (hremove p (hinsert q d (mf_files s))) (mf_writers s)
      | None => s
      end
  (* filesystem.rs:210-212 *)
  | CreateDirAll _ => s
  end.
Definition fs_run (h : list fs_op) : memfs := fold_left fs_step h memfs_new.

(** filesystem.rs:193-201 [read_file], 180-191 [open_file] read to its end *)
Definition fs_read_file (p : rstring) (s : memfs) : res bytes :=
  match hget p (mf_files s) with Some d => Ok d | None => Err end.
(** filesystem.rs:119-122 [get_file] *)
Definition fs_get_file (p : rstring) (s : memfs) : option bytes := hget p (mf_files s).
(** filesystem.rs:214-218 [exists] *)
Definition fs_exists (p : rstring) (s : memfs) : bool := match hget p (mf_files s) with Some _ => true | None => false end.
(** filesystem.rs:124-127 [list_files]; the order of a [HashMap] is not specified *)
Definition fs_list_files (s : memfs) : list rstring := map fst (mf_files s).

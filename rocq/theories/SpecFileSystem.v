(** What a history of file system calls should leave behind: for every path the content stored last. *)
From Verif Require Import Base FileSystem.

(** The history is given latest call first. *)
(** The path of the [h]-th writer that was created *)
Fixpoint created (past : list fs_op) : list rstring :=
  match past with
  | [] => []
  | CreateFile p :: past' => created past' ++ [p]
  | _ :: past' => created past'
  end.
(** Whether writer [h] exists and was not dropped yet *)
Fixpoint dropped (h : nat) (past : list fs_op) : bool :=
  match past with
  | [] => false
  | WriterDrop k :: past' => (if Nat.eqb k h then Nat.ltb h (List.length (created past')) else false) || dropped h past'
  | _ :: past' => dropped h past'
  end.
Definition open_writer (h : nat) (past : list fs_op) : option rstring :=
  if dropped h past then None else nth_error (created past) h.
(** Everything written through writer [h] *)
Fixpoint written (h : nat) (past : list fs_op) : bytes :=
  match past with
  | [] => []
  | WriterWrite k d :: past' => written h past' ++ (if Nat.eqb k h && Nat.ltb h (List.length (created past')) then d else [])
  | _ :: past' => written h past'
  end.

(** The content of path [p] *)
Fixpoint content (p : rstring) (past : list fs_op) : option bytes :=
  match past with
  | [] => None
  | WriteFile q d :: past' => if list_eq_dec N.eq_dec q p then Some d else content p past'
  | WriterFlush h :: past' | WriterDrop h :: past' =>
      match open_writer h past' with
      | Some q => if list_eq_dec N.eq_dec q p then Some (written h past') else content p past'
      | None => content p past'
      end
  | DeleteFile q :: past' => if list_eq_dec N.eq_dec q p then None else content p past'
  | Clear :: _ => None
  | Rename q r :: past' =>
      match content q past' with
      | Some d => if list_eq_dec N.eq_dec q p then None
                  else if list_eq_dec N.eq_dec r p then Some d else content p past'
      | None => content p past'
      end
  | CreateFile _ :: past' | WriterWrite _ _ :: past' | CreateDirAll _ :: past' => content p past'
  end.

(** Calls that store something under [p] or remove something from it *)
Definition touches (p : rstring) (past : list fs_op) (o : fs_op) : bool :=
  match o with
  | WriteFile q _ | DeleteFile q => if list_eq_dec N.eq_dec q p then true else false
  | WriterFlush h | WriterDrop h => match open_writer h past with Some q => if list_eq_dec N.eq_dec q p then true else false | None => false end
  | Clear => true
  | Rename q r => if list_eq_dec N.eq_dec q p then true else if list_eq_dec N.eq_dec r p then true else false
  | CreateFile _ | WriterWrite _ _ | CreateDirAll _ => false
  end.

(** What compacting must keep. *)
From Coq Require Import Permutation.
From Verif Require Import Base Text Image Sound Cfb SpecVpx Compact.

(** A compound file: names of its entries are stream names, no two entries have the same path but for case, and an entry lies in
    the root or in a storage. *)
Definition sound_file (up : N -> N) (f : cfile) : Prop :=
  Forall (fun e => fst e <> [] /\ Forall stream_name (fst e)) f /\
  NoDup (map (fun e => map (map (fold_char up)) (fst e)) f) /\
  Forall (fun e => removelast (fst e) = [] \/ exists q, In (q, Storage) f /\ map (map (fold_char up)) (removelast (fst e)) = map (map (fold_char up)) q) f.

(** An order of the entries in which storages come before what is in them *)
Definition parents_first (up : N -> N) (l : cfile) : Prop :=
  forall before e after, l = before ++ e :: after ->
    removelast (fst e) = [] \/ exists q, In (q, Storage) before /\ map (map (fold_char up)) (removelast (fst e)) = map (map (fold_char up)) q.

(** The same entries, in some order, and so the same stream or storage under every path *)
Definition same_table (up : N -> N) (f g : cfile) : Prop :=
  Permutation f g /\ forall p, cf_node up p f = cf_node up p g.

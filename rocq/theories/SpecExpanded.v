(** What extracting items into files must guarantee. *)
From Verif Require Import Base Cfb FileSystem ExpandedItems.

(** Lower-casing a name that ends in two underscores and a number changes only what stands before them. *)
Definition keeps_numbers (lower : rstring -> rstring) : Prop :=
  forall s, exists p, forall k, lower (s ++ lit "__" ++ dec_text k) = p ++ lit "__" ++ dec_text k.
(** The item's name as it appears in file names: characters that are not alphanumeric become underscores *)
Definition file_safe_name (alphanumeric : uchar -> bool) (i : xitem) : rstring :=
  map (fun c => if alphanumeric c then c else 95%N) (match xi_name i with [] => lit "unnamed" | n => n end).
(** Items whose names could be taken for something else: a name ending in "_anim_" and a number looks like an animation frame, and
    the name "json" looks like a second extension *)
Definition clear_name (alphanumeric : uchar -> bool) (i : xitem) : Prop :=
  (forall p k, file_safe_name alphanumeric i <> p ++ lit "_anim_" ++ dec_text k) /\ file_safe_name alphanumeric i <> lit "json".
(** What reading the files must give for an item with this file name (without .json): its own JSON, mesh and frames (no frames is the same
    as none) *)
Definition own_frames (name : rstring) (frames : list mesh_data) : list bytes :=
  map (fun e => fst (snd e (name ++ lit "_anim_" ++ dec_text (N.of_nat (fst e))))) (combine (seq 0 (List.length frames)) frames).
Definition own_data (m : mesh_format) (name : rstring) (i : xitem) : read_item :=
  (xi_json i, option_map (fun x => (m, fst (fst x name))) (xi_mesh i),
   match xi_mesh i with Some (_, d :: frames) => Some (m, own_frames name (d :: frames)) | _ => None end).
(** For glTF: the .bin files beside the files of the mesh and of the frames *)
Definition own_bins (name : rstring) (i : xitem) (dir : files) : Prop :=
  match xi_mesh i with
  | Some (d, frames) =>
      hget (name ++ lit ".bin") dir = Some (snd (d name)) /\
      forall k f, nth_error frames k = Some f ->
        let stem := name ++ lit "_anim_" ++ dec_text (N.of_nat k) in hget (stem ++ lit ".bin") dir = Some (snd (f stem))
  | None => True
  end.

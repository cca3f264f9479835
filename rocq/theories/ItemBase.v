(** Definitions shared by the game item models. *)
From Verif Require Import Base Text Biff Quantize Common.

(** [setter eta f s x]: the record [s] with field [f] replaced by [x]; [eta s] rebuilds [s] from its fields. *)
Ltac setter eta f s x :=
  let t := eval cbv beta delta [eta] in (eta s) in
  lazymatch eval pattern (f s) in t with
  | ?g _ => let r := eval cbv beta in (g x) in exact r
  end.

(** color.rs:26-38 *)
Definition Color_BLACK : Color := mkColor x00 x00 x00 x00.
Definition Color_WHITE : Color := mkColor xff xff xff x00.

(** [writer.get_data()] after a complete [biff_write] into a new writer (biff.rs:528-534) *)
Definition run_writer (m : wr_M) : res bytes :=
  match m wr_new with Ok w => Ok (w_data w) | Fail f => Fail f end.

(** gameitem/primitive.rs:930-947: [match v { Some(ref mut l) => l.push(x), None => v = Some(vec![x]) }] *)
Definition opt_push {A} (o : option (list A)) (x : A) : option (list A) :=
  match o with Some l => Some (l ++ [x]) | None => Some [x] end.

(** gameitem/primitive.rs:1103-1111: the animation frames, written in pairs up to the shorter of the two lists *)
Definition write_animation (lens : option (list u32)) (frames : option (list bytes)) : wr_M :=
  match lens, frames with
  | Some ls, Some fs =>
      wfor (combine ls fs) (fun '(l, f) => write_tagged_u32 "M3AY" l >>> write_tagged_data "M3AX" f)
  | _, _ => wskip
  end.

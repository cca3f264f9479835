(** What the JSON form of a record must keep. *)
From Coq Require Import Permutation.
From Verif Require Import Base Common JsonFloat SpecJson Json.

(** The JSON library gives finite numbers back, lower-cases ASCII texts as known, and goes through a set in some order. *)
Definition lib_ok (L : json_lib) : Prop :=
  keeps_finite (jl_num_of L) (jl_as_f32 L) /\ lowers_ascii (jl_lower L) /\ (forall l, Permutation (jl_order L l) l).
(** Values that are read back from what is written *)
Definition restores {L : json_lib} {A} (c : jcodec A) (x : A) : Prop := jc_of c (jc_to c x) = Ok x.

(** Plain floats have no JSON form when they are infinite or not a number; those of the following values must be finite. *)
Definition for_some {A} (P : A -> Prop) (o : option A) : Prop := match o with Some x => P x | None => True end.
Definition Vertex2D_finite (v : Vertex2D) : Prop := finite (v2_x v) /\ finite (v2_y v).
Definition Vertex3D_finite (v : Vertex3D) : Prop := finite (v3_x v) /\ finite (v3_y v) /\ finite (v3_z v).
Definition Vertex4D_finite (v : Vertex4D) : Prop := finite (v4_x v) /\ finite (v4_y v) /\ finite (v4_z v) /\ finite (v4_w v).
Definition DragPoint_finite (d : DragPoint) : Prop := finite (dp_x d) /\ finite (dp_y d) /\ finite (dp_z d) /\ finite (dp_tex_coord d).

(** Fields in another order, and with further fields whose keys are not among [keys] *)
Definition edited_by_hand {L : json_lib} (keys : list string) (o o' : list (string * json)) : Prop :=
  exists extra, Permutation o' (o ++ extra) /\ Forall (fun e => ~ In (fst e) keys) extra.
(** The same fields with one key called differently *)
Definition rename_key {L : json_lib} (a b : string) (o : list (string * json)) : list (string * json) :=
  map (fun e => (if (fst e =? a)%string then b else fst e, snd e)) o.

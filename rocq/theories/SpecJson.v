(** How a float is kept in JSON. *)
From Verif Require Import Base Text ColorText SpecColor JsonFloat.

(** The bits without the sign: infinity is 0x7f800000, a NaN is above, a finite number below *)
Definition magnitude (x : f32) : Z := w32_to_Z x mod 0x80000000.
Definition finite (x : f32) : Prop := magnitude x < 0x7f800000.
Definition nan (x : f32) : Prop := 0x7f800000 < magnitude x.
(** The JSON library gives finite numbers back *)
Definition keeps_finite {num} (num_of : f32 -> num) (num_as_f32 : num -> option f32) : Prop :=
  forall x, finite x -> num_as_f32 (num_of x) = Some x.
(** Lower-casing is the known one on ASCII texts *)
Definition lowers_ascii (lower : rstring -> rstring) : Prop :=
  forall s, Forall (fun c => (c < 128)%N) s -> lower s = map (fun c => if ((65 <=? c) && (c <=? 90))%N then (c + 32)%N else c) s.
(** The text of a NaN: eight hexadecimal digits, the lowest byte first *)
Definition nan_text (x : f32) (s : rstring) : Prop :=
  exists a b c d, s = lit "NaN|" ++ a ++ b ++ c ++ d /\
    hex_pair a (w32_0 x) /\ hex_pair b (w32_1 x) /\ hex_pair c (w32_2 x) /\ hex_pair d (w32_3 x).

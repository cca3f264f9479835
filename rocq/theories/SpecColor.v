(** What the text form of a colour is, independently of the code. *)
From Verif Require Import Base Common.

(** The value of a hexadecimal digit in either case *)
Definition hex_digit_value (c : uchar) (v : Z) : Prop :=
  (48 <= Z.of_N c <= 57 /\ v = Z.of_N c - 48) \/
  (97 <= Z.of_N c <= 102 /\ v = Z.of_N c - 87) \/
  (65 <= Z.of_N c <= 70 /\ v = Z.of_N c - 55).

(** Two hexadecimal digits standing for a byte *)
Definition hex_pair (p : rstring) (b : byte) : Prop :=
  exists hi lo v w, p = [hi; lo] /\ hex_digit_value hi v /\ hex_digit_value lo w /\ byte_to_Z b = 16 * v + w.

(** "#rrggbb", or "uu#rrggbb" with the unused byte *)
Definition color_text (t : rstring) (c : Color) : Prop :=
  exists r g b, hex_pair r (c_r c) /\ hex_pair g (c_g c) /\ hex_pair b (c_b c) /\
    ((t = [35%N] ++ r ++ g ++ b /\ c_unused c = x00) \/
     (exists u, hex_pair u (c_unused c) /\ t = u ++ [35%N] ++ r ++ g ++ b)).

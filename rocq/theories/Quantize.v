(** Quantisation of floats to integers: src/vpx/math/quantize.rs.

    A binary32 value is stored as its bit pattern ([w32]); arithmetic is done on the standard library's
    [spec_float] (round to nearest, ties to even), with precision 24/128 for f32 and 53/1024 for f64.
    NaN payloads are not tracked by [spec_float]; no function below returns a NaN computed from its argument
    ([f32::min] returns the other operand). *)
From Verif Require Import Base.
From Coq Require Import Floats.SpecFloat.

(** The value of a binary32 bit pattern. *)
Definition f32_value (w : f32) : spec_float :=
  let z := w32_to_Z w in
  let s := 2147483648 <=? z in
  let e := (z / 8388608) mod 256 in
  let m := z mod 8388608 in
  if e =? 255 then (if m =? 0 then S754_infinity s else S754_nan)
  else if e =? 0 then
    match m with Zpos p => S754_finite s p (-149) | _ => S754_zero s end
  else match m + 8388608 with Zpos p => S754_finite s p (e - 150) | _ => S754_nan end.

(** The bit pattern of a binary32 value. *)
Definition f32_bits (f : spec_float) : f32 :=
  let sg (s : bool) := if s then 2147483648 else 0 in
  Z_to_w32
    match f with
    | S754_zero s => sg s
    | S754_infinity s => sg s + 255 * 8388608
    | S754_nan => 255 * 8388608 + 4194304
    | S754_finite s m e =>
        if Zpos m <? 8388608 then sg s + Zpos m
        else sg s + (e + 150) * 8388608 + (Zpos m - 8388608)
    end.

(** [n as f32] for an integer *)
Definition f32_of_Z (n : Z) : spec_float := binary_normalize 24 128 n 0 false.
(** [x as f64] for an f32 *)
Definition f64_of_f32 (x : spec_float) : spec_float :=
  match x with S754_finite s m e => binary_normalize 53 1024 (cond_Zopp s (Zpos m)) e s | _ => x end.
(** [x as f32] for an f64 *)
Definition f32_of_f64 (x : spec_float) : spec_float :=
  match x with S754_finite s m e => binary_normalize 24 128 (cond_Zopp s (Zpos m)) e s | _ => x end.
(** [f32::min] *)
Definition f32_min (a b : spec_float) : spec_float :=
  match a, b with
  | S754_nan, _ => b
  | _, S754_nan => a
  | _, _ => if SFltb b a then b else a
  end.
(** [x as u32], [x as u8]: truncation, saturating at 0 and [max]; NaN gives 0 *)
Definition float_to_uint (max : Z) (x : spec_float) : Z :=
  match x with
  | S754_zero _ | S754_nan => 0
  | S754_infinity s => if s then 0 else max
  | S754_finite s m e =>
      if s then 0 else Z.min max (if 0 <=? e then Zpos m * 2 ^ e else Zpos m / 2 ^ (- e))
  end.
(** [x >= 0.0] *)
Definition f32_ge0 (x : spec_float) : bool := SFleb (S754_zero false) x.

(** quantize.rs:28-31 [precise_divide] *)
Definition precise_divide (a b : spec_float) : spec_float :=
  f32_of_f64 (SFdiv 53 1024 (f64_of_f32 a) (f64_of_f32 b)).

Definition f32_one : spec_float := f32_of_Z 1.

(** quantize.rs:33-37 [dequantize_unsigned_percent] *)
Definition dequantize_unsigned_percent (i : u32) : f32 :=
  f32_bits (f32_min (precise_divide (f32_of_Z (w32_to_Z i)) (f32_of_Z 100)) f32_one).
(** quantize.rs:39-45 [quantize_unsigned_percent] *)
Definition quantize_unsigned_percent (x : f32) : res u32 :=
  let v := f32_value x in
  if f32_ge0 v
  then Ok (Z_to_w32 (float_to_uint 4294967295 (f32_min (SFmul 24 128 v (f32_of_Z 101)) (f32_of_Z 100))))
  else Panic.
(** quantize.rs:47-53 [quantize_u8]; [bits] is 7 or 8 at all call sites *)
Definition quantize_u8 (bits : Z) (x : f32) : res byte :=
  let n := 2 ^ bits - 1 in
  let v := f32_value x in
  if f32_ge0 v
  then Ok (Z_to_byte (float_to_uint 255 (f32_min (SFmul 24 128 v (f32_of_Z (2 ^ bits))) (f32_of_Z n))))
  else Panic.
(** quantize.rs:55-59 [dequantize_u8] *)
Definition dequantize_u8 (bits : Z) (i : byte) : f32 :=
  f32_bits (f32_min (precise_divide (f32_of_Z (byte_to_Z i)) (f32_of_Z (2 ^ bits - 1))) f32_one).
(** quantize.rs:61-65 [dequantize_unsigned::<8>] *)
Definition dequantize_unsigned_8 (i : u32) : f32 :=
  f32_bits (f32_min (precise_divide (f32_of_Z (w32_to_Z i)) (f32_of_Z 255)) f32_one).
(** quantize.rs:67-73 [quantize_unsigned::<8>] *)
Definition quantize_unsigned_8 (x : f32) : res u32 :=
  let v := f32_value x in
  if f32_ge0 v
  then Ok (Z_to_w32 (float_to_uint 4294967295 (f32_min (SFmul 24 128 v (f32_of_Z 256)) (f32_of_Z 255))))
  else Panic.

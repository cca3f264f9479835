(** Floats in JSON: src/vpx/json.rs. *)
From Verif Require Import Base Text Image Sound ColorText.

Section Json.
(** JSON numbers are those of serde_json: [num_of] is the number written for a finite f32 ([serialize_f32]), [num_as_f32] is
    [as_f64] followed by [as f32] ([None]: [as_f64] gives nothing) *)
Variable num : Type.
Variable num_of : f32 -> num.
Variable num_as_f32 : num -> option f32.
(** [str::to_lowercase] *)
Variable lower : rstring -> rstring.

(** serde_json's [Value]; arrays, objects and booleans are all [JOther] *)
Inductive jvalue : Type := JNull | JString (s : rstring) | JNumber (n : num) | JOther.

(** [f32::is_nan], [f32::is_infinite], [f32::is_sign_positive] on the bits *)
Definition exponent_bits (x : f32) : Z := (w32_to_Z x / 8388608) mod 256.
Definition mantissa_bits (x : f32) : Z := w32_to_Z x mod 8388608.
Definition f32_is_nan (x : f32) : bool := (exponent_bits x =? 255) && negb (mantissa_bits x =? 0).
Definition f32_is_infinite (x : f32) : bool := (exponent_bits x =? 255) && (mantissa_bits x =? 0).
Definition f32_is_negative (x : f32) : bool := 2147483648 <=? w32_to_Z x.
Definition f32_infinity : f32 := Z_to_w32 0x7f800000.
Definition f32_neg_infinity : f32 := Z_to_w32 0xff800000.

(** [hex::encode] *)
Definition hex_encode (d : bytes) : rstring := flat_map hex2 d.
(** [hex::decode]: both cases of letters; an odd length or any other character is an error *)
Definition hex_char_value (c : uchar) : option Z :=
  if ((48 <=? c) && (c <=? 57))%N then Some (Z.of_N c - 48)
  else if ((97 <=? c) && (c <=? 102))%N then Some (Z.of_N c - 87)
  else if ((65 <=? c) && (c <=? 70))%N then Some (Z.of_N c - 55)
  else None.
Fixpoint hex_decode (s : rstring) : res bytes :=
  match s with
  | [] => Ok []
  | a :: b :: s' =>
      match hex_char_value a, hex_char_value b with
      | Some x, Some y => r <~ hex_decode s' ;; Ok (Z_to_byte (16 * x + y) :: r)
      | _, _ => Err
      end
  | [_] => Err
  end.
(** [str::strip_prefix] *)
Fixpoint strip_prefix (p s : rstring) : option rstring :=
  match p, s with
  | [], _ => Some s
  | c :: p', d :: s' => if (c =? d)%N then strip_prefix p' s' else None
  | _, [] => None
  end.

(** json.rs:39-59 [serialize_f32_nan_inf_as_string] *)
Definition F32WithNanInf_to_json (x : f32) : jvalue :=
  if f32_is_nan x then JString (lit "NaN|" ++ hex_encode (w32_bytes x))
  else if negb (f32_is_negative x) && f32_is_infinite x then JString (lit "Inf")
  else if f32_is_negative x && f32_is_infinite x then JString (lit "-Inf")
  else JNumber (num_of x).
(** json.rs:61-96 [deserialize_f32_nan_inf_from_string]; [copy_from_slice] panics unless there are exactly four bytes *)
Definition F32WithNanInf_from_json (v : jvalue) : res f32 :=
  match v with
  | JString s =>
      let other := lower s in
      if rstring_eqb other (lit "inf") then Ok f32_infinity
      else if rstring_eqb other (lit "-inf") then Ok f32_neg_infinity
      else match strip_prefix (lit "nan|") other with
           | Some hex => d <~ hex_decode hex ;;
               match d with [a; b; c; e] => Ok (W32 a b c e) | _ => Panic end
           | None => Err
           end
  | JNumber n => match num_as_f32 n with Some x => Ok x | None => Err end
  | _ => Err
  end.

(** serde_json for a plain [f32] field: [serialize_f32] writes null for NaN and the infinities; reading null is an error *)
Definition f32_to_json (x : f32) : jvalue := if exponent_bits x =? 255 then JNull else JNumber (num_of x).
Definition f32_from_json (v : jvalue) : res f32 :=
  match v with JNumber n => match num_as_f32 n with Some x => Ok x | None => Err end | _ => Err end.
(** ... and for a plain [Option<f32>] field: null is [None] *)
Definition option_f32_to_json (x : option f32) : jvalue := match x with Some y => f32_to_json y | None => JNull end.
Definition option_f32_from_json (v : jvalue) : res (option f32) :=
  match v with JNull => Ok None | _ => x <~ f32_from_json v ;; Ok (Some x) end.
End Json.
Arguments JNull {num}. Arguments JString {num}. Arguments JNumber {num}. Arguments JOther {num}.

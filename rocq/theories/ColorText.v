(** The JSON text form of colours: src/vpx/color.rs:41-100. *)
From Verif Require Import Base Text Biff Common.

(** [format!("{:02x}", b)] of the standard library: two lower-case hexadecimal digits (color.rs:47,51-52) *)
Definition hex_digit (n : Z) : uchar := Z.to_N (if n <? 10 then 48 + n else 87 + n).
Definition hex2 (b : byte) : rstring := [hex_digit (byte_to_Z b / 16); hex_digit (byte_to_Z b mod 16)].

(** color.rs:41-57 [Serialize for Color]: the string handed to the serializer *)
Definition Color_to_text (c : Color) : rstring :=
  if byte_to_Z (c_unused c) =? 0
  then lit "#" ++ hex2 (c_r c) ++ hex2 (c_g c) ++ hex2 (c_b c)
  else hex2 (c_unused c) ++ lit "#" ++ hex2 (c_r c) ++ hex2 (c_g c) ++ hex2 (c_b c).

(** [&s[a..b]] of the standard library: the offsets count bytes of the UTF-8 form, and an offset that is past the end or
    inside a character panics.  [s] is given by its UTF-8 bytes. *)
Definition is_char_boundary (s : bytes) (i : Z) : bool :=
  if i =? 0 then true
  else match nth_error s (Z.to_nat i) with
       | Some b => negb (in_range 0x80 0xBF (byte_to_Z b))
       | None => i =? zlen s
       end.
Definition str_slice (s : bytes) (a b : Z) : res bytes :=
  if (a <=? b) && is_char_boundary s a && is_char_boundary s b
  then Ok (firstn (Z.to_nat (b - a)) (skipn (Z.to_nat a) s))
  else Panic.

(** [char::to_digit(16)] *)
Definition hex_value (b : byte) : option Z :=
  let z := byte_to_Z b in
  if in_range 48 57 z then Some (z - 48)
  else if in_range 97 102 z then Some (z - 87)
  else if in_range 65 70 z then Some (z - 55)
  else None.
Fixpoint hex_digits_value (acc : Z) (d : bytes) : res Z :=
  match d with
  | [] => Ok acc
  | b :: d' => match hex_value b with
               | Some v => let n := acc * 16 + v in if n <? 256 then hex_digits_value n d' else Err
               | None => Err
               end
  end.
(** [u8::from_str_radix(s, 16)] of the standard library: a leading '+' is accepted, overflow and other characters are
    errors *)
Definition u8_from_hex (d : bytes) : res byte :=
  match d with
  | [] => Err
  | b :: d' =>
      if byte_to_Z b =? 43
      then match d' with [] => Err | _ => n <~ hex_digits_value 0 d' ;; Ok (Z_to_byte n) end
      else n <~ hex_digits_value 0 d ;; Ok (Z_to_byte n)
  end.

(** color.rs:60-100 [Deserialize for Color], after [String::deserialize] has produced the string *)
Definition Color_of_text (text : rstring) : res Color :=
  let s := utf8_encode text in
  if zlen s =? 7 then
    p <~ str_slice s 0 1 ;;
    if negb (match p with [b] => byte_to_Z b =? 35 | _ => false end) then Err else
    x <~ str_slice s 1 3 ;; r <~ u8_from_hex x ;;
    x <~ str_slice s 3 5 ;; g <~ u8_from_hex x ;;
    x <~ str_slice s 5 7 ;; b <~ u8_from_hex x ;;
    Ok (mkColor r g b x00)
  else if zlen s =? 9 then
    p <~ str_slice s 2 3 ;;
    if negb (match p with [b] => byte_to_Z b =? 35 | _ => false end) then Err else
    x <~ str_slice s 0 2 ;; u <~ u8_from_hex x ;;
    x <~ str_slice s 3 5 ;; r <~ u8_from_hex x ;;
    x <~ str_slice s 5 7 ;; g <~ u8_from_hex x ;;
    x <~ str_slice s 7 9 ;; b <~ u8_from_hex x ;;
    Ok (mkColor r g b u)
  else Err.

(** Text encodings: src/vpx/utf16.rs, src/vpx/model.rs and the standard-library conversions they call. *)
From Verif Require Import Base.

Definition in_range (lo hi x : Z) : bool := (lo <=? x) && (x <=? hi).

(** ** UTF-16LE (src/vpx/utf16.rs) *)

(** [bytes.chunks_exact(2).map(u16::from_le_bytes)] (utf16.rs:11-14); called on even lengths only *)
Fixpoint units_of_bytes (d : bytes) : list Z :=
  match d with
  | b0 :: b1 :: d' => w16_to_Z (W16 b0 b1) :: units_of_bytes d'
  | _ => []
  end.

(** [String::from_utf16] of the Rust standard library: unpaired surrogates are errors. *)
Fixpoint from_utf16 (us : list Z) : res rstring :=
  match us with
  | [] => Ok []
  | u :: us' =>
      if in_range 0xD800 0xDFFF u then
        if u <? 0xDC00 then
          match us' with
          | u2 :: us'' =>
              if in_range 0xDC00 0xDFFF u2
              then s <~ from_utf16 us'' ;;
                   Ok (Z.to_N (0x10000 + (u - 0xD800) * 0x400 + (u2 - 0xDC00)) :: s)
              else Err
          | [] => Err
          end
        else Err
      else s <~ from_utf16 us' ;; Ok (Z.to_N u :: s)
  end.

(** utf16.rs:3-17 [decode_utf16le] *)
Definition decode_utf16le (d : bytes) : res rstring :=
  if negb (Nat.even (List.length d)) then Err
  else from_utf16 (units_of_bytes d).

(** [char::encode_utf16] of the standard library *)
Definition char_utf16 (c : uchar) : list Z :=
  let z := Z.of_N c in
  if z <? 0x10000 then [z]
  else [0xD800 + (z - 0x10000) / 0x400; 0xDC00 + (z - 0x10000) mod 0x400].

(** utf16.rs:19-24 [encode_utf16le] *)
Definition encode_utf16le (s : rstring) : bytes :=
  flat_map (fun u => w16_bytes (Z_to_w16 u)) (flat_map char_utf16 s).

(** ** UTF-8 (standard library: [String::from_utf8], [String::into_bytes]) *)

Definition utf8_char (c : uchar) : bytes :=
  let z := Z.of_N c in
  if z <? 0x80 then [Z_to_byte z]
  else if z <? 0x800 then [Z_to_byte (0xC0 + z / 64); Z_to_byte (0x80 + z mod 64)]
  else if z <? 0x10000 then
    [Z_to_byte (0xE0 + z / 4096); Z_to_byte (0x80 + (z / 64) mod 64); Z_to_byte (0x80 + z mod 64)]
  else
    [Z_to_byte (0xF0 + z / 262144); Z_to_byte (0x80 + (z / 4096) mod 64);
     Z_to_byte (0x80 + (z / 64) mod 64); Z_to_byte (0x80 + z mod 64)].
Definition utf8_encode (s : rstring) : bytes := flat_map utf8_char s.

Definition cont (z : Z) : bool := in_range 0x80 0xBF z.

(** Validation follows core::str::validations::run_utf8_validation. *)
Fixpoint utf8_decode (d : bytes) : option rstring :=
  match d with
  | [] => Some []
  | b0 :: d1 =>
      let z0 := byte_to_Z b0 in
      if z0 <? 0x80 then option_map (cons (Z.to_N z0)) (utf8_decode d1)
      else if in_range 0xC2 0xDF z0 then
        match d1 with
        | b1 :: d2 =>
            let z1 := byte_to_Z b1 in
            if cont z1 then option_map (cons (Z.to_N ((z0 - 0xC0) * 64 + (z1 - 0x80)))) (utf8_decode d2)
            else None
        | _ => None
        end
      else if in_range 0xE0 0xEF z0 then
        match d1 with
        | b1 :: b2 :: d3 =>
            let z1 := byte_to_Z b1 in let z2 := byte_to_Z b2 in
            if ((z0 =? 0xE0) && in_range 0xA0 0xBF z1 ||
                in_range 0xE1 0xEC z0 && cont z1 ||
                (z0 =? 0xED) && in_range 0x80 0x9F z1 ||
                in_range 0xEE 0xEF z0 && cont z1) && cont z2
            then option_map (cons (Z.to_N ((z0 - 0xE0) * 4096 + (z1 - 0x80) * 64 + (z2 - 0x80)))) (utf8_decode d3)
            else None
        | _ => None
        end
      else if in_range 0xF0 0xF4 z0 then
        match d1 with
        | b1 :: b2 :: b3 :: d4 =>
            let z1 := byte_to_Z b1 in let z2 := byte_to_Z b2 in let z3 := byte_to_Z b3 in
            if ((z0 =? 0xF0) && in_range 0x90 0xBF z1 ||
                in_range 0xF1 0xF3 z0 && cont z1 ||
                (z0 =? 0xF4) && in_range 0x80 0x8F z1) && cont z2 && cont z3
            then option_map (cons (Z.to_N ((z0 - 0xF0) * 262144 + (z1 - 0x80) * 4096 + (z2 - 0x80) * 64 + (z3 - 0x80))))
                            (utf8_decode d4)
            else None
        | _ => None
        end
      else None
  end.

(** ** [StringWithEncoding] (src/vpx/model.rs:52-126) *)
Inductive StringEncoding : Set := Latin1 | Utf8.
Record StringWithEncoding : Type := mkSWE { swe_encoding : StringEncoding; swe_string : rstring }.

(** model.rs:87-101 [From<&[u8]>] (and 103-117 [From<Vec<u8>>], same body) *)
Definition swe_of_bytes (d : bytes) : StringWithEncoding :=
  match utf8_decode d with
  | Some s => mkSWE Utf8 s
  | None => mkSWE Latin1 (decode_latin1 d)
  end.

(** model.rs:119-126 [From<StringWithEncoding> for Vec<u8>]; also the match in biff.rs:617-620 *)
Definition swe_to_bytes (s : StringWithEncoding) : res bytes :=
  match swe_encoding s with
  | Utf8 => Ok (utf8_encode (swe_string s))
  | Latin1 => encode_latin1_lossy (swe_string s)
  end.

(** model.rs:66-85 [new], [from], [empty] *)
Definition swe_new (s : rstring) : StringWithEncoding := mkSWE Utf8 s.
Definition swe_empty : StringWithEncoding := mkSWE Utf8 [].

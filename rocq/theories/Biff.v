(** The BIFF record reader and writer: src/vpx/biff.rs *)
From Verif Require Import Base Text.
From Coq Require Import Strings.Byte.

(** ** Reader (biff.rs:21-505)

    [r_checked] tells whether integer overflow checks are compiled in (debug profile) or not (release profile).
    [usize] values are represented by integers; an underflow of [bytes_in_record_remaining] panics when
    [r_checked], and otherwise wraps modulo 2^64, which is represented by the (negative) integer congruent to it.
    The field [record_start] is write-only in the Rust code and is left out. *)
Record rd : Type := mkRd {
  r_data : bytes;
  r_pos : Z;
  r_rem : Z;
  r_tag : string;
  r_warn : bool;
  r_checked : bool }.

Definition rd_M (A : Type) := rd -> res (A * rd).
Definition rret {A} (a : A) : rd_M A := fun r => Ok (a, r).
Definition rbindM {A B} (m : rd_M A) (k : A -> rd_M B) : rd_M B :=
  fun r => match m r with Ok (a, r') => k a r' | Fail f => Fail f end.
Definition rpanic {A} : rd_M A := fun _ => Panic.
Definition rlift {A} (x : res A) : rd_M A := fun r => match x with Ok a => Ok (a, r) | Fail f => Fail f end.
Notation "x <- e ;; k" := (rbindM e (fun x => k)) (at level 61, e at next level, right associativity).
Notation "e1 ;;; e2" := (rbindM e1 (fun _ => e2)) (at level 61, right associativity).

Definition set_pos (r : rd) (p : Z) : rd := mkRd (r_data r) p (r_rem r) (r_tag r) (r_warn r) (r_checked r).
Definition set_rem (r : rd) (n : Z) : rd := mkRd (r_data r) (r_pos r) n (r_tag r) (r_warn r) (r_checked r).
Definition set_rtag (r : rd) (t : string) : rd := mkRd (r_data r) (r_pos r) (r_rem r) t (r_warn r) (r_checked r).

(** biff.rs:39-49 [new] *)
Definition rd_new (checked : bool) (data : bytes) : rd := mkRd data 0 0 "" true checked.
(** biff.rs:51-61 [with_remaining] *)
Definition rd_with_remaining (checked : bool) (data : bytes) (n : Z) : rd := mkRd data 0 n "" true checked.
(** biff.rs:66-68 [disable_warn_remaining] *)
Definition disable_warn_remaining : rd_M unit :=
  fun r => Ok (tt, mkRd (r_data r) (r_pos r) (r_rem r) (r_tag r) false (r_checked r)).

(** biff.rs:78-80 [is_eof] *)
Definition is_eof (r : rd) : bool := (zlen (r_data r) <=? r_pos r) || (r_tag r =? "ENDB")%string.

(** [self.bytes_in_record_remaining -= count] *)
Definition sub_rem (count : Z) : rd_M unit :=
  fun r => if (r_rem r <? count) && r_checked r then Panic else Ok (tt, set_rem r (r_rem r - count)).

(** [&self.data[self.pos..self.pos + count]] followed by [self.pos += count] *)
Definition take (count : Z) : rd_M bytes :=
  fun r => match slice (r_data r) (r_pos r) count with
           | Ok b => Ok (b, set_pos r (r_pos r + count))
           | Fail f => Fail f
           end.

(** biff.rs:82-85 [get] *)
Definition get (count : Z) : rd_M bytes := sub_rem count ;;; take count.
(** biff.rs:87-91 [get_no_remaining_update] *)
Definition get_no_remaining_update (count : Z) : rd_M bytes := take count.

Definition w16_of (b : bytes) : res w16 :=
  match b with [b0; b1] => Ok (W16 b0 b1) | _ => Panic end.
Definition w32_of (b : bytes) : res w32 :=
  match b with [b0; b1; b2; b3] => Ok (W32 b0 b1 b2 b3) | _ => Panic end.
Definition w64_of (b : bytes) : res w64 :=
  match b with
  | [b0; b1; b2; b3; b4; b5; b6; b7] => Ok (W64 (W32 b0 b1 b2 b3) (W32 b4 b5 b6 b7))
  | _ => Panic
  end.
Definition byte_of (b : bytes) : res byte := match b with [b0] => Ok b0 | _ => Panic end.

(** biff.rs:118-122 [get_u8_no_remaining_update], 112-116 [get_u8] *)
Definition get_u8_no_remaining_update : rd_M byte := b <- take 1 ;; rlift (byte_of b).
Definition get_u8 : rd_M byte := x <- get_u8_no_remaining_update ;; sub_rem 1 ;;; rret x.
(** biff.rs:130-134, 124-128 [get_u16] *)
Definition get_u16_no_remaining_update : rd_M u16 := b <- take 2 ;; rlift (w16_of b).
Definition get_u16 : rd_M u16 := x <- get_u16_no_remaining_update ;; sub_rem 2 ;;; rret x.
(** biff.rs:142-146 [get_u32_no_remaining_update], 136-140 [get_u32] *)
Definition get_u32_no_remaining_update : rd_M u32 := b <- take 4 ;; rlift (w32_of b).
Definition get_u32 : rd_M u32 := x <- get_u32_no_remaining_update ;; sub_rem 4 ;;; rret x.
(** biff.rs:148-157 [get_32], [get_32_no_remaining_update]; 281-286 [get_i32] *)
Definition get_32_no_remaining_update : rd_M i32 := b <- take 4 ;; rlift (w32_of b).
Definition get_32 : rd_M i32 := x <- get_32_no_remaining_update ;; sub_rem 4 ;;; rret x.
Definition get_i32 : rd_M i32 := b <- take 4 ;; sub_rem 4 ;;; rlift (w32_of b).
(** biff.rs:159-170 [get_f32] (the NaN warning only logs) *)
Definition get_f32 : rd_M f32 := b <- take 4 ;; sub_rem 4 ;;; rlift (w32_of b).
(** biff.rs:267-272 [get_double], 288-300 [get_i64], [get_u64] *)
Definition get_w64 : rd_M w64 := b <- take 8 ;; sub_rem 8 ;;; rlift (w64_of b).

(** biff.rs:97-110 [get_bool]: every non-zero pattern is true *)
Definition get_bool : rd_M bool :=
  b <- take 4 ;; sub_rem 4 ;;; rret (negb (forallb is_nul b)).

(** The part of a byte string before its first NUL (the search loops of biff.rs:175-181, 203-210, 221-227). *)
Fixpoint until_nul (b : bytes) : bytes :=
  match b with
  | [] => []
  | c :: b' => if is_nul c then [] else c :: until_nul b'
  end.

(** The loop of [get_str] and friends, biff.rs:173-181: the search for the NUL indexes one byte at a time, so the
    string is accepted when either all [count] bytes exist or a NUL occurs before the end of the data. *)
Definition scan_str (d : bytes) (p count : Z) : res bytes :=
  if (p <? 0) || (count <? 0) || (zlen d <? p) then Panic else
  let avail := skipn (Z.to_nat p) d in
  let s := until_nul (firstn (Z.to_nat count) avail) in
  if (zlen s =? count) || (zlen s <? zlen avail) then Ok s else Panic.

(** biff.rs:476-485 [sub_remaining]: explicit check; a wrapped (negative) value is a huge [usize] and passes. *)
Definition sub_remaining (count : Z) : rd_M unit :=
  fun r => if (0 <=? r_rem r) && (r_rem r <? count) then Panic else Ok (tt, set_rem r (r_rem r - count)).

Definition scan (count : Z) : rd_M bytes :=
  fun r => match scan_str (r_data r) (r_pos r) count with
           | Ok b => Ok (b, set_pos r (r_pos r + count))
           | Fail f => Fail f
           end.

(** biff.rs:172-186 [get_str] *)
Definition get_str (count : Z) : rd_M rstring :=
  b <- scan count ;; sub_remaining count ;;; rret (decode_latin1 b).
(** biff.rs:188-217 [get_str_with_encoding_no_remaining_update] *)
Definition get_str_with_encoding_no_remaining_update (count : Z) : rd_M StringWithEncoding :=
  b <- scan count ;; rret (swe_of_bytes b).
(** biff.rs:219-233 [get_str_no_remaining_update] *)
Definition get_str_no_remaining_update (count : Z) : rd_M rstring :=
  b <- scan count ;; rret (decode_latin1 b).
(** biff.rs:235-238 [get_string] *)
Definition get_string : rd_M rstring := n <- get_u32 ;; get_str (w32_to_Z n).
(** biff.rs:240-243 [get_string_no_remaining_update] *)
Definition get_string_no_remaining_update : rd_M rstring :=
  n <- get_u32_no_remaining_update ;; get_str_no_remaining_update (w32_to_Z n).
(** biff.rs:245-252 [get_wide_string]; the [unwrap] turns a decoding error into a panic *)
Definition unwrap {A} (x : res A) : res A := match x with Ok a => Ok a | Err => Panic | Fail f => Fail f end.
Definition get_wide_string : rd_M rstring :=
  n <- get_u32 ;; b <- take (w32_to_Z n) ;; s <- rlift (unwrap (decode_utf16le b)) ;;
  sub_rem (w32_to_Z n) ;;; rret s.

(** biff.rs:380-392 [get_record_data] *)
Definition get_record_data (with_tag : bool) : rd_M bytes :=
  fun r =>
    let p0 := if with_tag then r_pos r - 4 else r_pos r in
    if negb with_tag && (zlen (r_data r) <=? r_pos r + r_rem r) then Panic else
    match slice (r_data r) p0 (r_pos r + r_rem r - p0) with
    | Ok b => Ok (b, set_rem (set_pos r (r_pos r + r_rem r)) 0)
    | Fail f => Fail f
    end.

(** biff.rs:394-401 [get_data_no_remaining_update] *)
Definition get_data_no_remaining_update : rd_M bytes :=
  n <- get_u32_no_remaining_update ;; b <- take (w32_to_Z n) ;;
  fun r => Ok (b, set_rem r 0).
(** biff.rs:403-408 [get_data] *)
Definition get_data (count : Z) : rd_M bytes := b <- take count ;; fun r => Ok (b, set_rem r 0).
(** biff.rs:410-412 [get_remaining] ([&data[pos..]] panics when [pos > len]) *)
Definition get_remaining : rd_M bytes :=
  fun r => match slice (r_data r) (r_pos r) (zlen (r_data r) - r_pos r) with
           | Ok b => Ok (b, r) | Fail f => Fail f end.

(** biff.rs:414-417 [skip] *)
Definition skip (count : Z) : rd_M unit :=
  fun r => if r_pos r + count <? 0 then Panic
           else sub_rem count (set_pos r (r_pos r + count)).
(** biff.rs:419-422 [skip_end_tag] *)
Definition skip_end_tag (count : Z) : rd_M unit :=
  fun r => Ok (tt, set_rem (set_pos r (r_pos r + count)) 0).
(** biff.rs:424-429 [skip_tag] *)
Definition skip_tag : rd_M unit :=
  fun r => Ok (tt, set_rem (set_pos r (r_pos r + r_rem r)) 0).

(** biff.rs:431-463 [next]; the returned [Option] is not used by the readers, which consult [is_eof] and [tag].
    A tag is a Latin-1 string of at most four characters and is represented as a Coq [string]. *)
Definition next : rd_M unit :=
  fun r =>
    match (if r_rem r =? 0 then Ok (tt, r) else skip (r_rem r) r) with
    | Fail f => Fail f
    | Ok (_, r1) =>
        if zlen (r_data r1) <=? r_pos r1 then Panic else
        (n <- get_u32_no_remaining_update ;;
         (fun r2 => Ok (tt, set_rem r2 (w32_to_Z n))) ;;;
         b <- scan 4 ;; sub_remaining 4 ;;;
         fun r3 =>
           match b with
           | [] => Panic
           | _ =>
               let r4 := set_rtag r3 (string_of_list_byte b) in
               if r_warn r4 && (r_tag r4 =? "ENDB")%string && (r_pos r4 <? zlen (r_data r4)) then Panic
               else Ok (tt, r4)
           end) r1
    end.

(** biff.rs:465-474 [child_reader] *)
Definition child_reader : rd_M rd :=
  fun r => match get_remaining r with
           | Ok (b, _) => Ok (mkRd b 0 0 "" false (r_checked r), r)
           | Fail f => Fail f
           end.

(** biff.rs:487-507 [data_until].  The slice of [tag.len()] bytes panics when fewer bytes are left. *)
Fixpoint find_tag (tag : bytes) (d : bytes) : option Z :=
  match d with
  | [] => None
  | _ :: d' =>
      if zlen d <? zlen tag then None
      else if forallb (fun '(a, b) => Byte.eqb a b) (combine d tag) then Some 0
      else option_map (Z.add 1) (find_tag tag d')
  end.
Definition data_until (tag : bytes) : rd_M bytes :=
  fun r =>
    match find_tag tag (skipn (Z.to_nat (r_pos r)) (r_data r)) with
    | None => Panic
    | Some i =>
        let p := r_pos r + i - 4 in
        match slice (r_data r) (r_pos r) (p - r_pos r) with
        | Ok b => Ok (b, set_rem (set_pos r p) 0)
        | Fail f => Fail f
        end
    end.

(** The record loop shared by all [biff_read] functions:
    [loop { reader.next(WARN); if reader.is_eof() { break; } let tag = reader.tag(); match tag { .. } }]
    (for instance gameitem/wall.rs:285-).  [h tag s] is the body for one record. *)
Fixpoint biff_loop {S : Type} (fuel : nat) (h : string -> S -> rd_M S) (s : S) : rd_M S :=
  match fuel with
  | O => fun _ => OutOfFuel
  | Datatypes.S fuel' =>
      next ;;; fun r => if is_eof r then Ok (s, r)
                        else (s' <- h (r_tag r) s ;; biff_loop fuel' h s') r
  end.

(** Enough iterations for any input: see [biff_loop_term].  Every iteration consumes at least eight bytes; a tag that
    is cut short by a NUL may run up to four bytes past the end of the data. *)
Definition loop_fuel (r : rd) : nat := Datatypes.S (Z.to_nat ((zlen (r_data r) + 4) / 8)).
Definition run_loop {S : Type} (h : string -> S -> rd_M S) (s : S) : rd_M S :=
  fun r => biff_loop (loop_fuel r) h s r.

(** ** Writer (biff.rs:509-784) *)
Record wr : Type := mkWr {
  w_data : bytes;
  w_tag_start : Z;
  w_tag : string;
  w_size : Z }.

Definition wr_M := wr -> res wr.
Definition wseq (a b : wr_M) : wr_M := fun w => match a w with Ok w' => b w' | Fail f => Fail f end.
Definition wskip : wr_M := fun w => Ok w.
Notation "a >>> b" := (wseq a b) (at level 61, right associativity).

(** biff.rs:516-525, 528-530 *)
Definition wr_new : wr := mkWr [] 0 "" 0.

(** [self.data[start..start + 4].copy_from_slice(&b)] *)
Definition patch (d : bytes) (start : Z) (b : bytes) : bytes :=
  firstn (Z.to_nat start) d ++ b ++ skipn (Z.to_nat start + List.length b) d.

Definition two32 : Z := 4294967296.

(** [u32::try_from(n).unwrap()] *)
Definition try_u32 (n : Z) : res w32 := if n <? two32 then Ok (Z_to_w32 n) else Panic.

(** biff.rs:536-544 [end_tag] *)
Definition end_tag : wr_M :=
  fun w => if (w_tag w =? "")%string then Ok w else
    match try_u32 (w_size w) with
    | Ok n => Ok (mkWr (patch (w_data w) (w_tag_start w) (w32_bytes n)) (w_tag_start w) "" (w_size w))
    | Fail f => Fail f
    end.
(** biff.rs:546-553 [end_tag_no_size] *)
Definition end_tag_no_size : wr_M :=
  fun w => if (w_tag w =? "")%string then Ok w else
    Ok (mkWr (patch (w_data w) (w_tag_start w) (w32_bytes (Z_to_w32 4))) (w_tag_start w) "" (w_size w)).

(** The tag padded with NUL to four bytes; panics when longer (biff.rs:560-563). *)
Definition pad_tag (t : string) : res bytes :=
  if (4 <? String.length t)%nat then Panic
  else Ok (firstn 4 (list_byte_of_string t ++ [x00; x00; x00; x00])).

(** biff.rs:555-567 [new_tag] *)
Definition new_tag (t : string) : wr_M :=
  end_tag >>> fun w =>
    match pad_tag t with
    | Ok p => Ok (mkWr (w_data w ++ [x00; x00; x00; x00] ++ p) (zlen (w_data w)) t 4)
    | Fail f => Fail f
    end.

(** biff.rs:654-657 [write_data]; 569-602 [write_u8] .. [write_f32] have the same effect for their bytes *)
Definition write_data (b : bytes) : wr_M :=
  fun w => Ok (mkWr (w_data w ++ b) (w_tag_start w) (w_tag w) (w_size w + zlen b)).
Definition write_u8 (b : byte) : wr_M := write_data [b].
Definition write_u16 (x : u16) : wr_M := write_data (w16_bytes x).
Definition write_u32 (x : u32) : wr_M := write_data (w32_bytes x).
Definition write_32 (x : i32) : wr_M := write_data (w32_bytes x).
Definition write_f32 (x : f32) : wr_M := write_data (w32_bytes x).

Definition wlift {A} (x : res A) (k : A -> wr_M) : wr_M :=
  fun w => match x with Ok a => k a w | Fail f => Fail f end.

(** biff.rs:604-608 [write_short_string]; [u8::try_from(len).unwrap()] *)
Definition write_short_string (s : rstring) : wr_M :=
  wlift (encode_latin1_lossy s) (fun d =>
    if zlen d <? 256 then write_u8 (Z_to_byte (zlen d)) >>> write_data d else fun _ => Panic).
(** biff.rs:649-652 [write_length_prefixed_data] *)
Definition write_length_prefixed_data (d : bytes) : wr_M :=
  wlift (try_u32 (zlen d)) (fun n => write_u32 n >>> write_data d).
(** biff.rs:610-614 [write_string] *)
Definition write_string (s : rstring) : wr_M :=
  wlift (encode_latin1_lossy s) write_length_prefixed_data.
(** biff.rs:616-623 [write_string_with_encoding] *)
Definition write_string_with_encoding (s : StringWithEncoding) : wr_M :=
  wlift (swe_to_bytes s) write_length_prefixed_data.
(** biff.rs:625-633 [write_string_empty_zero] *)
Definition write_string_empty_zero (s : rstring) : wr_M :=
  match s with
  | [] => write_u32 (Z_to_w32 1) >>> write_u8 x00
  | _ => write_string s
  end.
(** biff.rs:635-639 [write_wide_string] *)
Definition write_wide_string (s : rstring) : wr_M := write_length_prefixed_data (encode_utf16le s).
(** biff.rs:641-647 [write_bool] *)
Definition write_bool (b : bool) : wr_M :=
  if b then write_u32 (Z_to_w32 1) else write_u32 (Z_to_w32 0).

(** biff.rs:659-771: [write_tagged_*]: [new_tag], the value, [end_tag] *)
Definition write_tagged_with (t : string) (body : wr_M) : wr_M := new_tag t >>> body >>> end_tag.
Definition write_tagged_without_size (t : string) (body : wr_M) : wr_M := new_tag t >>> body >>> end_tag_no_size.
Definition write_tagged_empty (t : string) : wr_M := new_tag t >>> end_tag.
Definition write_tagged_bool t b := write_tagged_with t (write_bool b).
Definition write_tagged_f32 t x := write_tagged_with t (write_f32 x).
Definition write_tagged_u32 t x := write_tagged_with t (write_u32 x).
Definition write_tagged_i32 t x := write_tagged_with t (write_32 x).
Definition write_tagged_string t s := write_tagged_with t (write_string s).
Definition write_tagged_string_no_size t s := write_tagged_without_size t (write_string s).
Definition write_tagged_string_with_encoding_no_size t s :=
  write_tagged_without_size t (write_string_with_encoding s).
Definition write_tagged_wide_string t s := write_tagged_with t (write_wide_string s).
Definition write_tagged_vec2 t x y := write_tagged_with t (write_f32 x >>> write_f32 y).
Definition write_tagged_padded_vector t x y z :=
  write_tagged_with t (write_f32 x >>> write_f32 y >>> write_f32 z >>> write_f32 (Z_to_w32 0)).
Definition write_tagged_unpadded_vector t x y z :=
  write_tagged_with t (write_f32 x >>> write_f32 y >>> write_f32 z).
Definition write_tagged_data t b := write_tagged_with t (write_data b).
Definition write_tagged_data_without_size t b := write_tagged_without_size t (write_data b).

(** biff.rs:773-778 [close] *)
Definition close (write_endb : bool) : wr_M :=
  (if write_endb then new_tag "ENDB" else wskip) >>> end_tag.
(** biff.rs:780-783 [write_marker_tag] *)
Definition write_marker_tag (t : string) : wr_M := new_tag t >>> end_tag.

(** [for x in list { f(x) }] *)
Fixpoint wfor {A} (l : list A) (f : A -> wr_M) : wr_M :=
  match l with [] => wskip | x :: l' => f x >>> wfor l' f end.
(** [if let Some(x) = o { f(x) }] *)
Definition wopt {A} (o : option A) (f : A -> wr_M) : wr_M :=
  match o with Some x => f x | None => wskip end.

(** Basic vocabulary of the model: results with panics, machine words, byte slices. *)
From Coq Require Export List ZArith NArith Lia Bool String Ascii.
From Coq Require Export Init.Byte.
From Coq Require Import Strings.Byte.
Export ListNotations.
Open Scope Z_scope.
Open Scope list_scope.

Global Arguments Z.add : simpl never.
Global Arguments Z.sub : simpl never.
Global Arguments Z.mul : simpl never.
Global Arguments Z.div : simpl never.
Global Arguments Z.modulo : simpl never.
Global Arguments Z.of_nat : simpl never.
Global Arguments Z.to_nat : simpl never.
Global Arguments Z.of_N : simpl never.
Global Arguments Z.to_N : simpl never.
Global Arguments Z.ltb : simpl never.
Global Arguments Z.leb : simpl never.
Global Arguments Z.eqb : simpl never.

(** ** Results.  A Rust panic is the explicit value [Panic]; running out of the fuel that the model adds to
    unbounded loops is [OutOfFuel], which theorems exclude; [Err] is an [Err(..)] returned by Rust code. *)
Inductive failure : Set :=
| PanicF | OutOfFuelF | ErrF.

Inductive res (A : Type) : Type :=
| Ok (a : A)
| Fail (f : failure).
Arguments Ok {A} a.
Arguments Fail {A} f.
Notation Panic := (Fail PanicF).
Notation OutOfFuel := (Fail OutOfFuelF).
Notation Err := (Fail ErrF).

Definition rbind {A B} (x : res A) (k : A -> res B) : res B :=
  match x with Ok a => k a | Fail f => Fail f end.
Notation "x <~ e ;; k" := (rbind e (fun x => k)) (at level 61, e at next level, right associativity).
Notation "' p <~ e ;; k" := (rbind e (fun x => match x with p => k end))
  (at level 61, p pattern, e at next level, right associativity).

Definition is_ok {A} (x : res A) : bool := match x with Ok _ => true | _ => false end.

(** ** Bytes and little-endian words.
    A fixed-width machine value is represented by its little-endian bytes, so that every inhabitant of the type is
    a machine value and nothing else is.  [i32], [u32] and [f32] share the representation [w32] (what is stored are
    the bits); the numeric value is given by [w32_to_Z]. *)
Definition bytes := list byte.

Definition byte_to_Z (b : byte) : Z := Z.of_N (Byte.to_N b).
Definition Z_to_byte (z : Z) : byte :=
  match Byte.of_N (Z.to_N (z mod 256)) with Some b => b | None => x00 end.

Record w16 : Set := W16 { w16_0 : byte; w16_1 : byte }.
Record w32 : Set := W32 { w32_0 : byte; w32_1 : byte; w32_2 : byte; w32_3 : byte }.
Record w64 : Set := W64 { w64_lo : w32; w64_hi : w32 }.

Definition w16_bytes (w : w16) : bytes := [w16_0 w; w16_1 w].
Definition w32_bytes (w : w32) : bytes := [w32_0 w; w32_1 w; w32_2 w; w32_3 w].
Definition w64_bytes (w : w64) : bytes := w32_bytes (w64_lo w) ++ w32_bytes (w64_hi w).

Definition w16_to_Z (w : w16) : Z := byte_to_Z (w16_0 w) + 256 * byte_to_Z (w16_1 w).
Definition w32_to_Z (w : w32) : Z :=
  byte_to_Z (w32_0 w) + 256 * (byte_to_Z (w32_1 w) + 256 * (byte_to_Z (w32_2 w) + 256 * byte_to_Z (w32_3 w))).
Definition Z_to_w16 (z : Z) : w16 := W16 (Z_to_byte z) (Z_to_byte (z / 256)).
Definition Z_to_w32 (z : Z) : w32 :=
  W32 (Z_to_byte z) (Z_to_byte (z / 256)) (Z_to_byte (z / 65536)) (Z_to_byte (z / 16777216)).

(** Types of Rust values that are stored as 32 bits. *)
Definition u32 := w32.
Definition i32 := w32.
Definition f32 := w32.   (* the IEEE bit pattern *)
Definition u16 := w16.

Definition w32_eqb (a b : w32) : bool :=
  Byte.eqb (w32_0 a) (w32_0 b) && Byte.eqb (w32_1 a) (w32_1 b) &&
  Byte.eqb (w32_2 a) (w32_2 b) && Byte.eqb (w32_3 a) (w32_3 b).

Definition zlen {A} (l : list A) : Z := Z.of_nat (List.length l).
Global Arguments zlen : simpl never.

(** [slice d p n] is the Rust slice expression [&d[p..p+n]], with its bounds check. *)
Definition slice {A} (d : list A) (p n : Z) : res (list A) :=
  if (0 <=? p) && (0 <=? n) && (p + n <=? zlen d)
  then Ok (firstn (Z.to_nat n) (skipn (Z.to_nat p) d))
  else Panic.

(** ** Rust strings: sequences of Unicode scalar values. *)
Definition uchar := N.
Definition rstring := list uchar.
Definition is_scalar (c : uchar) : bool := ((c <? 0xD800) || ((0xE000 <=? c) && (c <? 0x110000)))%N.
(** Every Rust [String] satisfies this (guaranteed by the Rust type). *)
Definition is_rstring (s : rstring) : bool := forallb is_scalar s.

Definition lit (s : string) : rstring := map N_of_ascii (list_ascii_of_string s).

(** [encoding_rs::mem::decode_latin1] *)
Definition decode_latin1 (d : bytes) : rstring := map Byte.to_N d.

(** [encoding_rs::mem::encode_latin1_lossy]: for characters above U+00FF the crate documents the output as
    unspecified (and asserts in debug builds); modelled as [Panic]. *)
Fixpoint encode_latin1_lossy (s : rstring) : res bytes :=
  match s with
  | [] => Ok []
  | c :: s' => match (if (c <? 256)%N then Byte.of_N c else None) with
               | Some b => r <~ encode_latin1_lossy s' ;; Ok (b :: r)
               | None => Panic
               end
  end.

(** The Latin-1 strings that contain no NUL: the strings a length-prefixed string record can hold. *)
Definition latin1_ok (s : rstring) : bool := forallb (fun c => ((0 <? c) && (c <? 256))%N) s.

Definition is_nul (b : byte) : bool := match b with x00 => true | _ => false end.

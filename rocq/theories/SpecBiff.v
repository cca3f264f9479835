(** What a record stream looks like: the specification used by the statements about BIFF records.  The layout
    is written down independently of the reader and writer models; the second part drives these models the way a user does. *)
From Verif Require Import Base Text Biff.

(** A 32-bit little-endian number. *)
Definition le32 (n : Z) : bytes :=
  [Z_to_byte (n mod 256); Z_to_byte (n / 256 mod 256); Z_to_byte (n / 65536 mod 256); Z_to_byte (n / 16777216 mod 256)].
(** A tag of at most four bytes, filled up with NUL. *)
Definition tag4 (t : string) : bytes := list_byte_of_string t ++ repeat x00 (4 - String.length t).
(** A record: the size of tag and payload, the tag, the payload. *)
Definition record_bytes (r : string * bytes) : bytes := le32 (4 + zlen (snd r)) ++ tag4 (fst r) ++ snd r.
(** A sequence of records and the end marker. *)
Definition stream_bytes (rs : list (string * bytes)) : bytes := flat_map record_bytes rs ++ record_bytes ("ENDB"%string, []).

Definition valid_tag (t : string) : Prop :=
  (1 <= String.length t <= 4)%nat /\ ~ In x00 (list_byte_of_string t).
(** Records other than the end marker, whose size fits the header. *)
Definition valid_record (r : string * bytes) : Prop :=
  valid_tag (fst r) /\ fst r <> "ENDB"%string /\ 4 + zlen (snd r) < 2 ^ 32.

(** Unicode scalar values. *)
Definition scalar_value (c : N) : Prop := (c < 0xD800 \/ 0xE000 <= c < 0x110000)%N.
(** The characters a Latin-1 string record can hold. *)
Definition latin1_char (c : N) : Prop := (1 <= c < 256)%N.

(** ** Driving the writer and the reader *)
(** Writing a list of records with the writer. *)
Definition write_records (rs : list (string * bytes)) : wr_M :=
  wfor rs (fun r => write_tagged_data (fst r) (snd r)) >>> close true.
(** A loop body that collects what it sees: every record's tag and all its data. *)
Definition collect (t : string) (acc : list (string * bytes)) : rd_M (list (string * bytes)) :=
  p <- get_record_data false ;; rret (acc ++ [(t, p)]).
(** The loop body of a reader that knows one tag only, with the getter [g] for its value. *)
Definition values_of {A} (t : string) (g : rd_M A) (t' : string) (acc : list A) : rd_M (list A) :=
  if (t' =? t)%string then x <- g ;; rret (acc ++ [x]) else skip_tag ;;; rret acc.
Definition read_values {A} (t : string) (g : rd_M A) (c : bool) (b : bytes) : res (list A) :=
  match run_loop (values_of t g) [] (rd_new c b) with Ok (l, _) => Ok l | Fail f => Fail f end.
(** The part of a string before its first NUL. *)
Fixpoint before_nul (s : rstring) : rstring :=
  match s with [] => [] | c :: s' => if (c =? 0)%N then [] else c :: before_nul s' end.

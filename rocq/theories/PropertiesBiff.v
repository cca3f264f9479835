(** C01-C06: records and strings. *)
From Verif Require Import Base Text Biff Common ItemBase SpecBiff.
From Verif Require Import BaseFacts TextFacts TermFacts RecordFacts.

(** * C01: record streams *)
(** What the writer produces for a list of records is the byte string of the specification ... *)
Theorem C01_writer_produces_the_stream : forall rs,
  Forall valid_record rs -> run_writer (write_records rs) = Ok (stream_bytes rs).
Proof. exact write_records_bytes. Qed.
Print Assumptions C01_writer_produces_the_stream.
(** ... and the reader splits such a byte string into the same records, in debug and release builds, and stops at its end. *)
Theorem C01_reader_splits_the_stream : forall rs checked,
  Forall valid_record rs ->
  exists r, run_loop collect [] (rd_new checked (stream_bytes rs)) = Ok (rs, r) /\
            r_pos r = zlen (stream_bytes rs) /\ r_tag r = "ENDB"%string.
Proof. exact collect_stream. Qed.
Print Assumptions C01_reader_splits_the_stream.
(** Records whose payloads contain record headers and the end marker itself. *)
Example C01_example : Forall valid_record [("NAME", []); ("X", stream_bytes [("Y", [x01])]); ("DATA", [x00; x45; x4e; x44; x42])]%string.
Proof.
  repeat constructor; cbn; try lia; try discriminate; intros H; repeat destruct H as [H|H]; try discriminate; assumption.
Qed.
Example C01_example_bytes :
  run_writer (write_records [("NAME", []); ("X", [x2a])]%string)
  = Ok [x04; x00; x00; x00; x4e; x41; x4d; x45; x05; x00; x00; x00; x58; x00; x00; x00; x2a; x04; x00; x00; x00; x45; x4e; x44; x42].
Proof. reflexivity. Qed.

(** * C02: termination of the record loop *)
(** However many iterations [n] a record loop is allowed, provided at least (length + 4) / 8 + 1, it ends by itself,
    with the same result: for every input and every loop body that does not move the reader before the record it was
    called on ([Term]; the bodies of all the readers in this model have it). *)
Theorem C02_record_loop_terminates : forall {S} (body : string -> S -> rd_M S) (s : S) checked input n,
  (forall t s, Term (body t s)) ->
  (Datatypes.S (Z.to_nat ((zlen input + 4) / 8)) <= n)%nat ->
  biff_loop n body s (rd_new checked input) <> OutOfFuel /\
  biff_loop n body s (rd_new checked input) = run_loop body s (rd_new checked input).
Proof. exact @run_loop_enough. Qed.
Print Assumptions C02_record_loop_terminates.

(** * C04: Latin-1 strings *)
(** Any number of strings written under one tag are read back up to their first NUL ... *)
Theorem C04_strings_read_back_up_to_NUL : forall t ss,
  valid_tag t -> t <> "ENDB"%string ->
  Forall (fun s : rstring => Forall (fun c => (c < 256)%N) s /\ zlen s < 2 ^ 32 - 8) ss ->
  exists b, run_writer (wfor ss (write_tagged_string t) >>> close true) = Ok b /\
            forall checked, read_values t get_string checked b = Ok (map before_nul ss).
Proof. exact string_writes. Qed.
Print Assumptions C04_strings_read_back_up_to_NUL.
(** ... so a string survives exactly when all its characters are in U+0001..U+00FF. *)
Theorem C04_survives_exactly_Latin1_without_NUL : forall t (s : rstring),
  valid_tag t -> t <> "ENDB"%string -> zlen s < 2 ^ 32 - 8 ->
  (exists b, run_writer (wfor [s] (write_tagged_string t) >>> close true) = Ok b /\
             forall checked, read_values t get_string checked b = Ok [s])
  <-> Forall latin1_char s.
Proof. exact string_exact. Qed.
Print Assumptions C04_survives_exactly_Latin1_without_NUL.
(** Every string that is read has only such characters. *)
Theorem C04_strings_read_are_Latin1_without_NUL : forall r s r', get_string r = Ok (s, r') -> Forall latin1_char s.
Proof. exact get_string_chars. Qed.
Print Assumptions C04_strings_read_are_Latin1_without_NUL.
Example C04_example : Forall latin1_char [0x56; 0xE9; 0xFF; 0x01]%N /\ ~ Forall latin1_char [0x56; 0x00; 0x41]%N.
Proof. split; [repeat constructor; cbv; congruence|]. intros H. inversion H as [|? ? ? H']. inversion H' as [|? ? [H'' _]]. apply H''. reflexivity. Qed.
Example C04_example_NUL : before_nul [0x56; 0x00; 0x41]%N = [0x56]%N.
Proof. reflexivity. Qed.
Example C04_example_tag : valid_tag "IMAG" /\ "IMAG"%string <> "ENDB"%string.
Proof. split; [|discriminate]. split; [cbn; lia|]. cbn. intros H; repeat destruct H as [H|H]; try discriminate; assumption. Qed.

(** * C05: UTF-16LE *)
Theorem C05_decode_encode : forall s, Forall scalar_value s -> decode_utf16le (encode_utf16le s) = Ok s.
Proof. intros s H. exact (utf16_roundtrip s (proj2 (is_rstring_scalars s) H)). Qed.
Print Assumptions C05_decode_encode.
Theorem C05_encode_decode : forall d s, decode_utf16le d = Ok s -> encode_utf16le s = d /\ Forall scalar_value s.
Proof. intros d s H. destruct (utf16_decode_inv d s H) as [H1 H2]. exact (conj H1 (proj1 (is_rstring_scalars s) H2)). Qed.
Print Assumptions C05_encode_decode.
(** Byte strings that encode no string are errors: nothing is replaced. *)
Theorem C05_rejects_exactly_the_others : forall d,
  decode_utf16le d = Err <-> ~ exists s, Forall scalar_value s /\ encode_utf16le s = d.
Proof. exact decode_utf16_err. Qed.
Print Assumptions C05_rejects_exactly_the_others.
Theorem C05_encoding_has_even_length : forall s, Nat.even (List.length (encode_utf16le s)) = true.
Proof. exact encode_utf16_even. Qed.
Print Assumptions C05_encoding_has_even_length.
(** Names in records. *)
Theorem C05_wide_strings_read_back : forall t ss,
  valid_tag t -> t <> "ENDB"%string ->
  Forall (fun s : rstring => Forall scalar_value s /\ zlen (encode_utf16le s) < 2 ^ 32 - 8) ss ->
  exists b, run_writer (wfor ss (write_tagged_wide_string t) >>> close true) = Ok b /\
            forall checked, read_values t get_wide_string checked b = Ok ss.
Proof. exact wide_writes. Qed.
Print Assumptions C05_wide_strings_read_back.
Example C05_example : encode_utf16le [0x41; 0x20AC; 0x1F600]%N = [x41; x00; xac; x20; x3d; xd8; x00; xde]
  /\ Forall scalar_value [0x41; 0x20AC; 0x1F600]%N.
Proof. split; [reflexivity|]. repeat constructor; unfold scalar_value; lia. Qed.
Example C05_example_rejected : decode_utf16le [x3d; xd8; x41; x00] = Err /\ decode_utf16le [x41] = Err.
Proof. split; reflexivity. Qed.

(** * C06: bytes of scripts *)
Theorem C06_bytes_preserved : forall d, swe_to_bytes (swe_of_bytes d) = Ok d.
Proof. exact swe_bytes_roundtrip. Qed.
Print Assumptions C06_bytes_preserved.
Theorem C06_utf8_exactly_when_valid : forall d,
  swe_encoding (swe_of_bytes d) = Utf8 <-> exists s, Forall scalar_value s /\ utf8_encode s = d.
Proof. exact swe_utf8_iff. Qed.
Print Assumptions C06_utf8_exactly_when_valid.
Theorem C06_utf8_text_is_decoded : forall d s,
  Forall scalar_value s -> utf8_encode s = d -> swe_of_bytes d = mkSWE Utf8 s.
Proof. exact swe_string_of. Qed.
Print Assumptions C06_utf8_text_is_decoded.
Example C06_example : swe_of_bytes [x41; xe2; x82; xac] = mkSWE Utf8 [0x41; 0x20AC]%N /\ swe_of_bytes [x41; xe9] = mkSWE Latin1 [0x41; 0xE9]%N.
Proof. split; reflexivity. Qed.

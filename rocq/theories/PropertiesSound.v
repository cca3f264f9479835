(** C11, C12, C47: sounds and WAV files. *)
From Verif Require Import Base Text Biff Enums Sound.
From Verif Require Import BaseFacts SoundFacts SpecBiff SpecStructs StructsProps SpecSound.

(** * C11: the sound streams of a table *)
(** At every version the bytes are the documented layout, and reading them returns what that version keeps: from 1031 on
    everything, before that everything but volume, balance and fade; the wave format belongs to WAV sounds only.  Bytes
    behind the sound do not matter. *)
Theorem C11_sound_stored : forall version s, sound_fits s ->
  Sound_write version s = Ok (sound_layout version s) /\
  forall checked rest, Sound_read checked version (sound_layout version s ++ rest) = Ok (kept_at version s).
Proof. exact sound_stored. Qed.
Print Assumptions C11_sound_stored.
(** In the new format a WAV sound is read back equal. *)
Theorem C11_new_format_round_trip : forall version s, sound_fits s -> 1031 <= version -> is_wav (so_path s) = true ->
  exists b, Sound_write version s = Ok b /\ forall checked, Sound_read checked version b = Ok s.
Proof.
  intros version s H Hv Hw. exists (sound_layout version s). split; [apply sound_stored, H|]. intros checked.
  pose proof (proj2 (sound_stored version s H) checked []) as E. rewrite app_nil_r in E. rewrite E. unfold kept_at. rewrite Hw.
  replace (1031 <=? version) with true by (symmetry; apply Z.leb_le; exact Hv). destruct s. reflexivity.
Qed.
Print Assumptions C11_new_format_round_trip.
(** Whatever was read is written such that it reads back equal, at the same version. *)
Theorem C11_sound_resave : forall checked version input s, size_fits (zlen input) -> Sound_read checked version input = Ok s ->
  exists output, Sound_write version s = Ok output /\ forall checked', Sound_read checked' version output = Ok s.
Proof. exact sound_resave. Qed.
Print Assumptions C11_sound_resave.
Definition example_sound (path : rstring) (data : bytes) : SoundData :=
  mkSoundData (lit "fx_coin") path
    (mkWaveForm (Z_to_w16 1) (Z_to_w16 2) (Z_to_w32 44100) (Z_to_w32 176400) (Z_to_w16 4) (Z_to_w16 16) (Z_to_w16 0))
    data [] (Z_to_w32 7) (Z_to_w32 100) (Z_to_w32 4294967286) OutputTarget_Backglass.
Example C11_example : sound_fits (example_sound (lit "D:\tables\Coin.WAV") [x01; x00; xff]) /\
  is_wav (lit "D:\tables\Coin.WAV") = true /\
  exists b, Sound_write 1030 (example_sound (lit "coin.mp3") [x01; x00; xff]) = Ok b /\
            (exists s, Sound_read true 1030 b = Ok s) /\ Sound_read true 1080 b = Panic.
Proof.
  split; [apply sound_fits_iff; vm_compute; reflexivity|]. split; [reflexivity|].
  eexists. split; [vm_compute; reflexivity|]. split; [eexists; vm_compute; reflexivity|vm_compute; reflexivity].
Qed.
(** The full statement (an equal sound at every version) does not hold: the old format drops the volume, and the wave
    format of a sound that is not a WAV is reset. *)
Theorem C11_every_version_refuted : exists version s, sound_fits s /\ is_wav (so_path s) = true /\
  exists b, Sound_write version s = Ok b /\ Sound_read true version b <> Ok s.
Proof.
  exists 1030, (example_sound (lit "a.wav") []). split; [apply sound_fits_iff; vm_compute; reflexivity|]. split; [reflexivity|].
  eexists. split; [vm_compute; reflexivity|]. vm_compute. discriminate.
Qed.
Print Assumptions C11_every_version_refuted.
(** A file with an extension is a WAV exactly when the extension is "wav" in any case; without extension it is one. *)
Theorem C11_wav_by_extension : forall dir stem e, plain_name stem -> e <> [] -> ~ In 46%N e -> ~ In 47%N e ->
  (is_wav (in_directory dir (stem ++ lit "." ++ e)) = true <-> lower_case e = lit "wav") /\
  (~ In 46%N stem -> is_wav (in_directory dir stem) = true).
Proof. intros. split; [apply is_wav_iff; assumption|intros; apply is_wav_no_ext; assumption]. Qed.
Print Assumptions C11_wav_by_extension.
Example C11_extension_example : plain_name (lit "a.b") /\ ~ In 46%N (lit "wAv") /\ ~ In 47%N (lit "wAv") /\
  is_wav (in_directory (lit "/x.y/..") (lit "a.b" ++ lit "." ++ lit "wAv")) = true /\
  is_wav (lit "* Backglass Output *") = true /\ is_wav (lit "") = true /\ is_wav (lit "x/.ogg") = true /\ is_wav (lit "x/a.ogg/") = false.
Proof.
  assert (N : forall c l, existsb (N.eqb c) l = false -> ~ In c l).
  { intros c l H Hi. apply not_true_iff_false in H. apply H. apply existsb_exists. exists c. split; [exact Hi|apply N.eqb_refl]. }
  split; [split; [discriminate|apply N; reflexivity]|]. split; [apply N; reflexivity|]. split; [apply N; reflexivity|]. repeat split; reflexivity.
Qed.
(** The separator is that of the machine the program runs on: a Windows path without extension in a directory with a dot
    is not taken for a WAV on other systems, so that its wave format is read as sound data. *)
Theorem C11_backslash_directory_refuted : is_wav (lit "C:\my.sounds\ding") = false.
Proof. reflexivity. Qed.
Print Assumptions C11_backslash_directory_refuted.

(** * C12: sounds as files *)
(** An uncompressed sound becomes a file of 44 header bytes and its samples, with sizes that match. *)
Theorem C12_pcm_file : forall checked s, is_wav (so_path s) = true -> rate_fits (so_wave_form s) ->
  zlen (so_data s) < 2 ^ 32 - 36 -> w16_to_Z (wf_format_tag (so_wave_form s)) = 1 ->
  write_sound checked s = Ok (pcm_file (so_wave_form s) (byte_rate (so_wave_form s)) (so_data s)).
Proof. exact wav_export. Qed.
Print Assumptions C12_pcm_file.
(** Exporting a sound of any format and importing the file into an entry with the same path restores the data and the
    wave format, except that the bytes per second are computed anew and the extra size of PCM is zero. *)
Theorem C12_export_import : forall checked s s0, so_path s0 = so_path s -> rate_fits (so_wave_form s) ->
  zlen (so_data s) < 2 ^ 32 - 36 ->
  exists file s1, write_sound checked s = Ok file /\ read_sound file s0 = Ok s1 /\
    so_data s1 = so_data s /\
    (so_name s1, so_path s1, so_internal_name s1, so_fade s1, so_volume s1, so_balance s1, so_output_target s1) =
    (so_name s0, so_path s0, so_internal_name s0, so_fade s0, so_volume s0, so_balance s0, so_output_target s0) /\
    let w := so_wave_form s in
    so_wave_form s1 =
      if is_wav (so_path s)
      then mkWaveForm (wf_format_tag w) (wf_channels w) (wf_samples_per_sec w) (Z_to_w32 (byte_rate w)) (wf_block_align w)
             (wf_bits_per_sample w) (if w16_to_Z (wf_format_tag w) =? 1 then Z_to_w16 0 else wf_cb_size w)
      else so_wave_form s0.
Proof.
  intros checked s s0 Hp HR HL. destruct (sound_export_import checked s s0 Hp HR HL) as (file & E1 & E2).
  exists file. eexists. split; [exact E1|]. split; [exact E2|]. destruct (is_wav (so_path s)); repeat split.
Qed.
Print Assumptions C12_export_import.
(** So a sound whose byte rate is consistent survives extraction: the entry of sounds.json together with the file give the
    sound back. *)
Theorem C12_extracted_sound_restored : forall checked s, rate_fits (so_wave_form s) -> zlen (so_data s) < 2 ^ 32 - 36 ->
  w32_to_Z (wf_avg_bytes_per_sec (so_wave_form s)) = byte_rate (so_wave_form s) ->
  (w16_to_Z (wf_format_tag (so_wave_form s)) = 1 -> w16_to_Z (wf_cb_size (so_wave_form s)) = 0) ->
  (is_wav (so_path s) = false -> so_wave_form s = WaveForm_new) ->
  exists file, write_sound checked s = Ok file /\ read_sound file (SoundDataJson_to (SoundDataJson_of s)) = Ok s.
Proof.
  intros checked s HR HL HB HC HN. destruct (sound_export_import checked s (SoundDataJson_to (SoundDataJson_of s)) eq_refl HR HL) as (file & E1 & E2).
  exists file. split; [exact E1|]. rewrite E2. f_equal. destruct s as [n p w d i f v b o]. unfold set_wave_and_data, SoundDataJson_to, SoundDataJson_of, reimported.
  cbn [so_name so_path so_wave_form so_data so_internal_name so_fade so_volume so_balance so_output_target sj_name sj_path sj_internal_name sj_fade sj_volume sj_balance sj_output_target] in *.
  f_equal. destruct (is_wav p); [|symmetry; auto]. rewrite <- HB, Z_to_w32_to_Z. destruct w as [w1 w2 w3 w4 w5 w6 w7].
  cbn [wf_format_tag wf_channels wf_samples_per_sec wf_avg_bytes_per_sec wf_block_align wf_bits_per_sample wf_cb_size] in *. f_equal.
  destruct (w16_to_Z w1 =? 1) eqn:E; [|reflexivity]. apply Z.eqb_eq in E. rewrite <- (Z_to_w16_to_Z w7), (HC E). reflexivity.
Qed.
Print Assumptions C12_extracted_sound_restored.
Example C12_example : let s := example_sound (lit "Coin.wav") [x01; x02; x03] in
  is_wav (so_path s) = true /\ rate_fits (so_wave_form s) /\ zlen (so_data s) < 2 ^ 32 - 36 /\
  w32_to_Z (wf_avg_bytes_per_sec (so_wave_form s)) = byte_rate (so_wave_form s) /\
  w16_to_Z (wf_format_tag (so_wave_form s)) = 1 /\ w16_to_Z (wf_cb_size (so_wave_form s)) = 0.
Proof. vm_compute. repeat split. Qed.
(** Without consistent bytes per second the sound changes: *)
Theorem C12_bytes_per_second_refuted : exists s, is_wav (so_path s) = true /\ rate_fits (so_wave_form s) /\
  exists file s1, write_sound true s = Ok file /\ read_sound file s = Ok s1 /\
    wf_avg_bytes_per_sec (so_wave_form s1) <> wf_avg_bytes_per_sec (so_wave_form s).
Proof.
  exists (mkSoundData [] [] (mkWaveForm (Z_to_w16 2) (Z_to_w16 1) (Z_to_w32 22050) (Z_to_w32 11155) (Z_to_w16 512) (Z_to_w16 4) (Z_to_w16 32))
            [x01] [] (Z_to_w32 0) (Z_to_w32 0) (Z_to_w32 0) OutputTarget_Table).
  split; [reflexivity|]. split; [vm_compute; split; reflexivity|]. do 2 eexists. split; [vm_compute; reflexivity|].
  split; [vm_compute; reflexivity|]. vm_compute. discriminate.
Qed.
Print Assumptions C12_bytes_per_second_refuted.
(** The sizes in the header of other formats are not those of the file: the data size holds the extra format size, the
    total is two bytes short. *)
Theorem C12_other_format_sizes_refuted : exists s file h rest, is_wav (so_path s) = true /\ write_sound true s = Ok file /\
  read_wav_header file = Ok (h, rest) /\ w32_to_Z (wh_data_size h) <> zlen rest /\ w32_to_Z (wh_size h) + 8 <> zlen file.
Proof.
  exists (mkSoundData [] [] (mkWaveForm (Z_to_w16 3) (Z_to_w16 1) (Z_to_w32 44100) (Z_to_w32 176400) (Z_to_w16 4) (Z_to_w16 32) (Z_to_w16 0))
            [x01; x02; x03; x04] [] (Z_to_w32 0) (Z_to_w32 0) (Z_to_w32 0) OutputTarget_Table).
  do 3 eexists. split; [reflexivity|]. split; [vm_compute; reflexivity|]. split; [vm_compute; reflexivity|]. vm_compute. split; discriminate.
Qed.
Print Assumptions C12_other_format_sizes_refuted.
(** Some wave formats make exporting panic in debug builds. *)
Theorem C12_export_panics_refuted : exists s, write_sound true s = Panic.
Proof.
  exists (mkSoundData [] [] (mkWaveForm (Z_to_w16 1) (Z_to_w16 65535) (Z_to_w32 65536) (Z_to_w32 0) (Z_to_w16 0) (Z_to_w16 65535) (Z_to_w16 0))
            [] [] (Z_to_w32 0) (Z_to_w32 0) (Z_to_w32 0) OutputTarget_Table). vm_compute. reflexivity.
Qed.
Print Assumptions C12_export_panics_refuted.

(** * C47: WAV containers *)
(** The header is found behind any chunks, which are kept byte for byte; format chunks of 16 bytes and of 18 and more. *)
Theorem C47_chunks_kept : forall size pre extra format channels rate bps align bits ext pad data_size rest,
  let content := fmt_fields format channels rate bps align bits ++ match ext with Some (e, x) => w16_bytes e ++ x | None => [] end in
  Forall other_chunk pre -> Forall other_chunk extra -> padded (mkChunk "fmt " content pad) ->
  read_wav_header (wav_head size (pre ++ [mkChunk "fmt " content pad] ++ extra) data_size ++ rest) =
  Ok (mkWavHeader size (Z_to_w32 (zlen content)) format channels rate bps align bits
        (match ext with Some (e, _) => Some e | None => None end) (match ext with Some (_, x) => x | None => [] end)
        (flat_map chunk_layout pre) (flat_map chunk_layout extra) data_size, rest).
Proof. exact wav_read. Qed.
Print Assumptions C47_chunks_kept.
Example C47_example : let c := mkChunk "LIST" (list_byte_of_string "INFOISFT") [] in let j := mkChunk "JUNK" [x01; x02; x03] [xff] in
  Forall other_chunk [j; c] /\ Forall other_chunk [c; j] /\
  padded (mkChunk "fmt " (fmt_fields (Z_to_w16 2) (Z_to_w16 1) (Z_to_w32 22050) (Z_to_w32 11155) (Z_to_w16 512) (Z_to_w16 4) ++
                            w16_bytes (Z_to_w16 1) ++ [x09]) [x00]).
Proof.
  cbv zeta. assert (P : forall c, (String.length (ck_id c) =? 4)%nat && forallb (fun b => (32 <=? byte_to_Z b) && (byte_to_Z b <=? 126)) (list_byte_of_string (ck_id c)) &&
    negb (ck_id c =? "fmt ")%string && negb (ck_id c =? "data")%string && (zlen (ck_content c) <? 2 ^ 32) && (zlen (ck_pad c) =? zlen (ck_content c) mod 2) = true -> other_chunk c).
  { intros c H. rewrite !andb_true_iff in H. destruct H as [[[[[H1 H2] H3] H4] H5] H6]. unfold other_chunk, printable_id, padded.
    apply negb_true_iff in H3, H4. apply String.eqb_neq in H3, H4. apply Z.ltb_lt in H5. apply Z.eqb_eq in H6. apply Nat.eqb_eq in H1.
    repeat split; try assumption. apply Forall_forall. rewrite forallb_forall in H2. intros b Hb. specialize (H2 b Hb).
    apply andb_true_iff in H2. destruct H2 as [A B]. apply Z.leb_le in A, B. split; assumption. }
  repeat split; try reflexivity; repeat (apply Forall_cons; [apply P; vm_compute; reflexivity|]); apply Forall_nil.
Qed.
(** For any file that is accepted, writing the header gives back the bytes that were read; only the value of the padding
    byte behind a format chunk of odd size may differ. *)
Theorem C47_header_rewritten : forall input h rest, read_wav_header input = Ok (h, rest) ->
  exists a pad b, input = a ++ pad ++ b ++ rest /\ write_wav_header h = a ++ repeat x00 (List.length pad) ++ b /\
    zlen pad = w32_to_Z (wh_fmt_size h) mod 2.
Proof. exact wav_rewritten. Qed.
Print Assumptions C47_header_rewritten.
(** On every input the reader finishes with a header or with an error; it does not panic. *)
Theorem C47_reading_ends : forall input,
  (exists h rest, read_wav_header input = Ok (h, rest)) \/ read_wav_header input = Err.
Proof. exact wav_header_term. Qed.
Print Assumptions C47_reading_ends.
(** Files of earlier versions of this program, whose format chunk is two bytes longer than it says. *)
Example C47_stray_extension : exists h rest,
  read_wav_header (list_byte_of_string "RIFF" ++ le32 40 ++ list_byte_of_string "WAVEfmt " ++ le32 16 ++
    fmt_fields (Z_to_w16 3) (Z_to_w16 1) (Z_to_w32 44100) (Z_to_w32 176400) (Z_to_w16 4) (Z_to_w16 32) ++ le16 0 ++
    list_byte_of_string "data" ++ le32 2 ++ [x01; x02]) = Ok (h, rest) /\ rest = [x01; x02] /\ wh_extension_size h = Some (Z_to_w16 0).
Proof. do 2 eexists. split; [vm_compute; reflexivity|]. split; reflexivity. Qed.

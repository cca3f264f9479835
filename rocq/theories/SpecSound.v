(** The specification used by the statements about sounds and WAV files. *)
From Verif Require Import Base Text Biff Enums SpecBiff SpecStructs Sound.

Definition le16 (n : Z) : bytes := [Z_to_byte (n mod 256); Z_to_byte (n / 256 mod 256)].

(** ** File names *)
(** The path of a file [name] in the directory [dir]; an empty [dir] stands for no directory. *)
Definition in_directory (dir name : rstring) : rstring :=
  match dir with [] => name | _ => dir ++ lit "/" ++ name end.
Definition plain_name (s : rstring) : Prop := s <> [] /\ ~ In 47%N s.
Definition lower_case (s : rstring) : rstring := map (fun c => if ((65 <=? c) && (c <=? 90))%N then (c + 32)%N else c) s.

(** ** Layout of a sound *)
Definition wave_form_layout (w : WaveForm) : bytes :=
  w16_bytes (wf_format_tag w) ++ w16_bytes (wf_channels w) ++ w32_bytes (wf_samples_per_sec w) ++
  w32_bytes (wf_avg_bytes_per_sec w) ++ w16_bytes (wf_block_align w) ++ w16_bytes (wf_bits_per_sample w) ++ w16_bytes (wf_cb_size w).
(** The last four numbers are there since version 1031. *)
Definition sound_layout (version : Z) (s : SoundData) : bytes :=
  string_payload (so_name s) ++ string_payload (so_path s) ++
  match so_internal_name s with [] => le32 1 ++ [x00] | n => string_payload n end ++
  (if is_wav (so_path s) then wave_form_layout (so_wave_form s) else []) ++
  le32 (zlen (so_data s)) ++ so_data s ++
  [match so_output_target s with OutputTarget_Table => x00 | OutputTarget_Backglass => x01 end] ++
  (if 1031 <=? version
   then w32_bytes (so_volume s) ++ w32_bytes (so_balance s) ++ w32_bytes (so_fade s) ++ w32_bytes (so_volume s) else []).
Definition sound_fits (s : SoundData) : Prop :=
  string_fits (so_name s) /\ string_fits (so_path s) /\ string_fits (so_internal_name s) /\ data_fits (so_data s).
(** What a file of the given version keeps of a sound: a wave format only for WAV sounds, volume, balance and fade only
    since 1031. *)
Definition kept_at (version : Z) (s : SoundData) : SoundData :=
  let zero := Z_to_w32 0 in
  mkSoundData (so_name s) (so_path s)
    (if is_wav (so_path s) then so_wave_form s
     else mkWaveForm (Z_to_w16 1) (Z_to_w16 1) (Z_to_w32 44100) (Z_to_w32 88200) (Z_to_w16 2) (Z_to_w16 16) (Z_to_w16 0))
    (so_data s) (so_internal_name s)
    (if 1031 <=? version then so_fade s else zero) (if 1031 <=? version then so_volume s else zero)
    (if 1031 <=? version then so_balance s else zero) (so_output_target s).

(** ** WAV files *)
(** A chunk: id, size, content, and a byte of padding after content of odd size. *)
Record chunk : Type := mkChunk { ck_id : string; ck_content : bytes; ck_pad : bytes }.
Definition chunk_layout (c : chunk) : bytes :=
  list_byte_of_string (ck_id c) ++ le32 (zlen (ck_content c)) ++ ck_content c ++ ck_pad c.
Definition printable_id (s : string) : Prop :=
  String.length s = 4%nat /\ Forall (fun b => 32 <= byte_to_Z b <= 126) (list_byte_of_string s).
Definition padded (c : chunk) : Prop :=
  zlen (ck_content c) < 2 ^ 32 /\ zlen (ck_pad c) = zlen (ck_content c) mod 2.
(** Chunks other than the two the reader looks for. *)
Definition other_chunk (c : chunk) : Prop :=
  printable_id (ck_id c) /\ ck_id c <> "fmt "%string /\ ck_id c <> "data"%string /\ padded c.
(** The six numbers every format chunk starts with. *)
Definition fmt_fields (format channels : u16) (rate bytes_per_sec : u32) (align bits : u16) : bytes :=
  w16_bytes format ++ w16_bytes channels ++ w32_bytes rate ++ w32_bytes bytes_per_sec ++ w16_bytes align ++ w16_bytes bits.
(** A file up to the size of its data chunk. *)
Definition wav_head (size : u32) (chunks : list chunk) (data_size : u32) : bytes :=
  list_byte_of_string "RIFF" ++ w32_bytes size ++ list_byte_of_string "WAVE" ++ flat_map chunk_layout chunks ++
  list_byte_of_string "data" ++ w32_bytes data_size.
(** The 44 bytes in front of uncompressed samples: both sizes are those of what follows them. *)
Definition pcm_file (w : WaveForm) (bytes_per_sec : Z) (samples : bytes) : bytes :=
  wav_head (Z_to_w32 (36 + zlen samples))
    [mkChunk "fmt " (fmt_fields (wf_format_tag w) (wf_channels w) (wf_samples_per_sec w) (Z_to_w32 bytes_per_sec)
                       (wf_block_align w) (wf_bits_per_sample w)) []]
    (Z_to_w32 (zlen samples)) ++ samples.
(** Bytes per second of uncompressed samples. *)
Definition byte_rate (w : WaveForm) : Z :=
  w32_to_Z (wf_samples_per_sec w) * w16_to_Z (wf_bits_per_sample w) * w16_to_Z (wf_channels w) / 8.
(** The products computed for the header fit 32 bits (no wrap-around, no panic in debug builds). *)
Definition rate_fits (w : WaveForm) : Prop :=
  w32_to_Z (wf_samples_per_sec w) * w16_to_Z (wf_bits_per_sample w) < 2 ^ 32 /\
  w32_to_Z (wf_samples_per_sec w) * w16_to_Z (wf_bits_per_sample w) * w16_to_Z (wf_channels w) < 2 ^ 32.

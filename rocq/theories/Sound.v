(** Sounds: the sound stream of a table, and the WAV container used when sounds are extracted to files. *)
From Verif Require Import Base Text Biff Quantize Common Enums Structs Image.

(** ** Extensions *)
(** Splitting at every ['/'].  Simplification: only the Unix separator; [std::path::Path] also splits at backslashes on
    Windows. *)
Definition slash : N := 47.
Fixpoint split_on (c : N) (s : rstring) : list rstring :=
  match s with
  | [] => [[]]
  | x :: s' => if (x =? c)%N then [] :: split_on c s'
               else match split_on c s' with
                    | w :: ws => (x :: w) :: ws
                    | [] => [[x]]
                    end
  end.
Definition rstring_eqb (a b : rstring) : bool :=
  (fix go (a b : rstring) : bool := match a, b with
     | [], [] => true
     | x :: a', y :: b' => (x =? y)%N && go a' b'
     | _, _ => false
     end) a b.
(** The components of a path that [Components::next_back] does not skip: empty ones and ["."] do not count. *)
Definition path_components (p : rstring) : list rstring :=
  filter (fun w => negb (rstring_eqb w []) && negb (rstring_eqb w [dot])) (split_on slash p).
(** [Path::file_name]: the last component, unless it is [".."] *)
Definition path_file_name (p : rstring) : option rstring :=
  match rev (path_components p) with
  | w :: _ => if rstring_eqb w [dot; dot] then None else Some w
  | [] => None
  end.
(** [Path::extension]: after the last dot of the file name; a file name that starts with its only dot has none *)
Definition path_extension (p : rstring) : option rstring :=
  match path_file_name p with
  | Some w => match after_last_dot w with
              | Some e => if zlen w =? zlen e + 1 then None else Some e
              | None => None
              end
  | None => None
  end.
(** sound.rs:397-402 [str_path_ext] *)
Definition str_path_ext (p : rstring) : option rstring :=
  match path_extension p with
  | Some [] => None
  | e => e
  end.
Definition ascii_lower_char (c : N) : N := if ((65 <=? c) && (c <=? 90))%N then (c + 32)%N else c.
(** [str::eq_ignore_ascii_case] *)
Definition eq_ignore_ascii_case (a b : rstring) : bool :=
  rstring_eqb (map ascii_lower_char a) (map ascii_lower_char b).
(** sound.rs:404-411 [is_wav] *)
Definition is_wav (p : rstring) : bool :=
  match str_path_ext p with
  | Some e => eq_ignore_ascii_case e (lit "wav")
  | None => true
  end.

(** ** The stored sound *)
(** sound.rs:266-282 *)
Record WaveForm : Type := mkWaveForm {
  wf_format_tag : u16; wf_channels : u16; wf_samples_per_sec : u32; wf_avg_bytes_per_sec : u32;
  wf_block_align : u16; wf_bits_per_sample : u16; wf_cb_size : u16 }.
(** sound.rs:285-296 [WaveForm::new] *)
Definition WaveForm_new : WaveForm :=
  mkWaveForm (Z_to_w16 1) (Z_to_w16 1) (Z_to_w32 44100) (Z_to_w32 88200) (Z_to_w16 2) (Z_to_w16 16) (Z_to_w16 0).
(** sound.rs:106-121 *)
Record SoundData : Type := mkSoundData {
  so_name : rstring; so_path : rstring; so_wave_form : WaveForm; so_data : bytes; so_internal_name : rstring;
  so_fade : u32; so_volume : u32; so_balance : u32; so_output_target : OutputTarget }.
(** sound.rs:306-319 [ext] *)
Definition SoundData_ext (s : SoundData) : rstring :=
  match str_path_ext (so_path s) with Some e => e | None => lit "wav" end.
(** sound.rs:88 *)
Definition NEW_SOUND_FORMAT_VERSION : Z := 1031.

(** sound.rs:441-457 [read_wave_form] *)
Definition read_wave_form : rd_M WaveForm :=
  format_tag <- get_u16_no_remaining_update ;;
  channels <- get_u16_no_remaining_update ;;
  samples_per_sec <- get_u32_no_remaining_update ;;
  avg_bytes_per_sec <- get_u32_no_remaining_update ;;
  block_align <- get_u16_no_remaining_update ;;
  bits_per_sample <- get_u16_no_remaining_update ;;
  cb_size <- get_u16_no_remaining_update ;;
  rret (mkWaveForm format_tag channels samples_per_sec avg_bytes_per_sec block_align bits_per_sample cb_size).
(** sound.rs:459-467 [write_wave_form] *)
Definition write_wave_form (w : WaveForm) : wr_M :=
  write_u16 (wf_format_tag w) >>>
  write_u16 (wf_channels w) >>>
  write_u32 (wf_samples_per_sec w) >>>
  write_u32 (wf_avg_bytes_per_sec w) >>>
  write_u16 (wf_block_align w) >>>
  write_u16 (wf_bits_per_sample w) >>>
  write_u16 (wf_cb_size w).

(** sound.rs:321-395 [read]; the loop over the field numbers 0..6 or 0..10 is unrolled *)
Definition Sound_read_m (version : Z) : rd_M SoundData :=
  name <- get_string_no_remaining_update ;;
  path <- get_string_no_remaining_update ;;
  internal_name <- get_string_no_remaining_update ;;
  wave_form <- (if is_wav path then read_wave_form else rret WaveForm_new) ;;
  data <- get_data_no_remaining_update ;;
  target <- get_u8_no_remaining_update ;;
  output_target <- rlift (OutputTarget_of_u8 target) ;;
  if version <? NEW_SOUND_FORMAT_VERSION
  then rret (mkSoundData name path wave_form data internal_name (Z_to_w32 0) (Z_to_w32 0) (Z_to_w32 0) output_target)
  else _volume <- get_u32_no_remaining_update ;;
       balance <- get_u32_no_remaining_update ;;
       fade <- get_u32_no_remaining_update ;;
       volume <- get_u32_no_remaining_update ;;
       rret (mkSoundData name path wave_form data internal_name fade volume balance output_target).
(** vpx/mod.rs:885-901 [read_sound]: a fresh reader on the stream *)
Definition Sound_read (checked : bool) (version : Z) (input : bytes) : res SoundData :=
  match Sound_read_m version (rd_new checked input) with Ok (s, _) => Ok s | Fail f => Fail f end.
(** sound.rs:413-432 [write] *)
Definition Sound_write_m (version : Z) (s : SoundData) : wr_M :=
  write_string (so_name s) >>>
  write_string (so_path s) >>>
  write_string_empty_zero (so_internal_name s) >>>
  (if is_wav (so_path s) then write_wave_form (so_wave_form s) else wskip) >>>
  write_length_prefixed_data (so_data s) >>>
  write_u8 (OutputTarget_to_u8 (so_output_target s)) >>>
  (if NEW_SOUND_FORMAT_VERSION <=? version
   then write_u32 (so_volume s) >>> write_u32 (so_balance s) >>> write_u32 (so_fade s) >>> write_u32 (so_volume s)
   else wskip).
(** vpx/mod.rs:903-919 [write_sounds]: a fresh writer, whose data is stored as it is *)
Definition Sound_write (version : Z) (s : SoundData) : res bytes :=
  match Sound_write_m version s wr_new with Ok w => Ok (w_data w) | Fail f => Fail f end.

(** ** The WAV container *)
(** wav.rs:18-37 *)
Record WavHeader : Type := mkWavHeader {
  wh_size : u32; wh_fmt_size : u32; wh_format_tag : u16; wh_channels : u16; wh_samples_per_sec : u32;
  wh_avg_bytes_per_sec : u32; wh_block_align : u16; wh_bits_per_sample : u16; wh_extension_size : option u16;
  wh_extension_fields : bytes; wh_pre_fmt_fields : bytes; wh_extra_fields : bytes; wh_data_size : u32 }.
Definition RIFF_id : bytes := list_byte_of_string "RIFF".
Definition WAVE_id : bytes := list_byte_of_string "WAVE".
Definition fmt_id : bytes := list_byte_of_string "fmt ".
Definition data_id : bytes := list_byte_of_string "data".
(** wav.rs:79-106 [write_wav_header] *)
Definition write_wav_header (h : WavHeader) : bytes :=
  RIFF_id ++ w32_bytes (wh_size h) ++ WAVE_id ++ wh_pre_fmt_fields h ++
  fmt_id ++ w32_bytes (wh_fmt_size h) ++ w16_bytes (wh_format_tag h) ++ w16_bytes (wh_channels h) ++
  w32_bytes (wh_samples_per_sec h) ++ w32_bytes (wh_avg_bytes_per_sec h) ++ w16_bytes (wh_block_align h) ++
  w16_bytes (wh_bits_per_sample h) ++
  match wh_extension_size h with Some n => w16_bytes n ++ wh_extension_fields h | None => [] end ++
  (if w32_to_Z (wh_fmt_size h) mod 2 =? 1 then [x00] else []) ++
  wh_extra_fields h ++ data_id ++ w32_bytes (wh_data_size h).

(** wav.rs:108-119 *)
Record FmtChunk : Type := mkFmtChunk {
  fc_fmt_size : u32; fc_format_tag : u16; fc_channels : u16; fc_samples_per_sec : u32; fc_avg_bytes_per_sec : u32;
  fc_block_align : u16; fc_bits_per_sample : u16; fc_extension_size : option u16; fc_extension_fields : bytes }.
(** wav.rs:251-264 [read_bytes_vec], 266-277 [read_bytes]: too few bytes is an error, not a panic *)
Definition wav_bytes (n : Z) : cu_M bytes :=
  fun b => if zlen b <? n then Err else Ok (firstn (Z.to_nat n) b, skipn (Z.to_nat n) b).
(** wav.rs:279-285 *)
Definition wav_u16 : cu_M u16 := b <-- wav_bytes 2 ;; cu_lift (w16_of b).
Definition wav_u32 : cu_M u32 := b <-- wav_bytes 4 ;; cu_lift (w32_of b).
Fixpoint bytes_eqb (a b : bytes) : bool :=
  match a, b with
  | [], [] => true
  | x :: a', y :: b' => Byte.eqb x y && bytes_eqb a' b'
  | _, _ => false
  end.
(** wav.rs:287-297 [expect_bytes] *)
Definition wav_expect (e : bytes) : cu_M unit :=
  b <-- wav_bytes (zlen e) ;; if bytes_eqb b e then cret tt else cu_lift Err.
(** wav.rs:240-242 [is_chunk_id]: printable ASCII, [is_ascii_graphic] or a space *)
Definition is_chunk_id (b : bytes) : bool :=
  forallb (fun x => (32 <=? byte_to_Z x) && (byte_to_Z x <=? 126)) b.
(** wav.rs:302-309 [looks_like_stray_extension_size] *)
Definition looks_like_stray_extension_size (b : bytes) : bool :=
  if zlen b <? 6 then false
  else negb (is_chunk_id (firstn 4 b)) && is_chunk_id (firstn 4 (skipn 2 b)).
(** [u64::next_multiple_of(2)] *)
Definition even_size (n : Z) : Z := if n mod 2 =? 0 then n else n + 1.
(** wav.rs:188-238 [read_fmt_chunk] *)
Definition read_fmt_chunk (fmt_size : u32) : cu_M FmtChunk :=
  let n := w32_to_Z fmt_size in
  if negb (n =? 16) && (n <? 18) then cu_lift Err else
  chunk <-- wav_bytes (even_size n) ;;
  fun reader =>
    match (format_tag <-- wav_u16 ;; channels <-- wav_u16 ;; samples_per_sec <-- wav_u32 ;; avg_bytes_per_sec <-- wav_u32 ;;
           block_align <-- wav_u16 ;; bits_per_sample <-- wav_u16 ;;
           if 18 <=? n
           then extension_size <-- wav_u16 ;; extension_fields <-- wav_bytes (n - 18) ;;
                cret (mkFmtChunk fmt_size format_tag channels samples_per_sec avg_bytes_per_sec block_align bits_per_sample
                        (Some extension_size) extension_fields)
           else cret (mkFmtChunk fmt_size format_tag channels samples_per_sec avg_bytes_per_sec block_align bits_per_sample
                        None [])) chunk with
    | Ok (f, _) =>
        if negb (18 <=? n) && looks_like_stray_extension_size reader
        then (extension_size <-- wav_u16 ;;
              cret (mkFmtChunk (fc_fmt_size f) (fc_format_tag f) (fc_channels f) (fc_samples_per_sec f) (fc_avg_bytes_per_sec f)
                      (fc_block_align f) (fc_bits_per_sample f) (Some extension_size) [])) reader
        else Ok (f, reader)
    | Fail e => Fail e
    end.
(** wav.rs:133-185: the loop over the chunks.  Every round consumes at least eight bytes. *)
Fixpoint wav_chunks (fuel : nat) (size : u32) (fmt : option FmtChunk) (pre extra : bytes) : cu_M WavHeader :=
  match fuel with
  | O => cu_lift OutOfFuel
  | S fuel' =>
      chunk_id <-- wav_bytes 4 ;;
      if negb (is_chunk_id chunk_id) then cu_lift Err else
      chunk_size <-- wav_u32 ;;
      if bytes_eqb chunk_id data_id then
        match fmt with
        | Some f => cret (mkWavHeader size (fc_fmt_size f) (fc_format_tag f) (fc_channels f) (fc_samples_per_sec f)
                            (fc_avg_bytes_per_sec f) (fc_block_align f) (fc_bits_per_sample f) (fc_extension_size f)
                            (fc_extension_fields f) pre extra chunk_size)
        | None => cu_lift Err
        end
      else if bytes_eqb chunk_id fmt_id then
        match fmt with
        | Some _ => cu_lift Err
        | None => f <-- read_fmt_chunk chunk_size ;; wav_chunks fuel' size (Some f) pre extra
        end
      else
        payload <-- wav_bytes (even_size (w32_to_Z chunk_size)) ;;
        let chunk := chunk_id ++ w32_bytes chunk_size ++ payload in
        match fmt with
        | Some _ => wav_chunks fuel' size fmt pre (extra ++ chunk)
        | None => wav_chunks fuel' size fmt (pre ++ chunk) extra
        end
  end.
(** wav.rs:125-186 [read_wav_header]; the result also has the bytes left in the reader *)
Definition read_wav_header (input : bytes) : res (WavHeader * bytes) :=
  (_ <-- wav_expect RIFF_id ;; size <-- wav_u32 ;; _ <-- wav_expect WAVE_id ;;
   fun b => wav_chunks (S (List.length b)) size None [] [] b) input.

(** ** Sounds as files *)
(** Multiplication and addition of [u32]: panics in debug builds, wraps in release builds. *)
Definition u32_arith (checked : bool) (z : Z) : res Z :=
  if checked && (4294967296 <=? z) then Panic else Ok (z mod 4294967296).
(** sound.rs:173-212 [write_wav_header2]; [data.len() as u32] truncates *)
Definition write_wav_header2 (checked : bool) (s : SoundData) : res bytes :=
  let w := so_wave_form s in
  let pcm := w16_to_Z (wf_format_tag w) =? 1 in
  let len := zlen (so_data s) mod 4294967296 in
  let data_len := if pcm then len else w16_to_Z (wf_cb_size w) in
  a <~ u32_arith checked (w32_to_Z (wf_samples_per_sec w) * w16_to_Z (wf_bits_per_sample w)) ;;
  b <~ u32_arith checked (a * w16_to_Z (wf_channels w)) ;;
  let extension_size := if pcm then None else Some (Z_to_w16 0) in
  size <~ u32_arith checked (len + 36) ;;
  Ok (write_wav_header
    (mkWavHeader (Z_to_w32 size) (Z_to_w32 (if pcm then 16 else 18)) (wf_format_tag w) (wf_channels w) (wf_samples_per_sec w)
       (Z_to_w32 (b / 8)) (wf_block_align w) (wf_bits_per_sample w) extension_size [] [] [] (Z_to_w32 data_len))).
(** sound.rs:228-237 [write_sound] *)
Definition write_sound (checked : bool) (s : SoundData) : res bytes :=
  if is_wav (so_path s) then h <~ write_wav_header2 checked s ;; Ok (h ++ so_data s) else Ok (so_data s).
(** sound.rs:214-226 [From<WavHeader> for WaveForm], with the [cb_size] set by the caller *)
Definition WaveForm_of_header (h : WavHeader) (cb_size : u16) : WaveForm :=
  mkWaveForm (wh_format_tag h) (wh_channels h) (wh_samples_per_sec h) (wh_avg_bytes_per_sec h) (wh_block_align h)
    (wh_bits_per_sample h) cb_size.
Definition set_wave_and_data (w : WaveForm) (d : bytes) (s : SoundData) : SoundData :=
  mkSoundData (so_name s) (so_path s) w d (so_internal_name s) (so_fade s) (so_volume s) (so_balance s) (so_output_target s).
(** sound.rs:239-263 [read_sound] *)
Definition read_sound (input : bytes) (s : SoundData) : res SoundData :=
  if is_wav (so_path s) then
    '(h, rest) <~ read_wav_header input ;;
    let cb := if w16_to_Z (wh_format_tag h) =? 1 then Z_to_w16 0 else Z_to_w16 (w32_to_Z (wh_data_size h)) in
    Ok (set_wave_and_data (WaveForm_of_header h cb) rest s)
  else Ok (set_wave_and_data (so_wave_form s) input s).
(** sound.rs:123-139 *)
Record SoundDataJson : Type := mkSoundDataJson {
  sj_name : rstring; sj_path : rstring; sj_internal_name : rstring; sj_fade : u32; sj_volume : u32; sj_balance : u32;
  sj_output_target : OutputTarget; sj_name_dedup : option rstring }.
(** sound.rs:142-153 [from_sound_data] *)
Definition SoundDataJson_of (s : SoundData) : SoundDataJson :=
  mkSoundDataJson (so_name s) (so_path s) (so_internal_name s) (so_fade s) (so_volume s) (so_balance s) (so_output_target s) None.
(** sound.rs:154-167 [to_sound_data] *)
Definition SoundDataJson_to (j : SoundDataJson) : SoundData :=
  mkSoundData (sj_name j) (sj_path j) WaveForm_new [] (sj_internal_name j) (sj_fade j) (sj_volume j) (sj_balance j)
    (sj_output_target j).

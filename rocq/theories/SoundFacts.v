(** Facts about sounds and WAV files. *)
From Verif Require Import Base Text Biff Quantize Common Enums Structs Image Sound.
From Verif Require Import BaseFacts TextFacts BiffFacts CommonFacts EnumsFacts ItemBaseFacts TermFacts StructsFacts RecordFacts.
From Verif Require Import SpecBiff SpecItems SpecStructs StructsProps ImageFacts SpecSound.
From Coq Require Import ZifyBool ZifyNat ZifyN.
Ltac Zify.zify_post_hook ::= Z.div_mod_to_equations.

(** ** Reading a sound *)
Definition GetsZ {A} (g : rd_M A) (p : bytes) (x : A) : Prop :=
  forall pre rest t w c, g (at_ pre (p ++ rest) 0 t w c) = Ok (x, at_ (pre ++ p) rest 0 t w c).
Lemma GetsZ_bind {A B} (g : rd_M A) (k : A -> rd_M B) p q x y : GetsZ g p x -> GetsZ (k x) q y -> GetsZ (rbindM g k) (p ++ q) y.
Proof.
  intros H1 H2 pre rest t w c. rewrite <- app_assoc. rewrite (bindM_ok _ _ _ _ _ (H1 _ _ _ _ _)). rewrite H2, <- app_assoc. reflexivity.
Qed.
Lemma GetsZ_ret {A} (x : A) : GetsZ (rret x) [] x.
Proof. intros pre rest t w c. unfold rret. rewrite app_nil_r. reflexivity. Qed.
Lemma GetsZ_ret' {A} (x : A) p : p = [] -> GetsZ (rret x) p x.
Proof. intros ->. apply GetsZ_ret. Qed.
Lemma GetsZ_lift {A B} (x : res A) (a : A) (k : A -> rd_M B) p y : x = Ok a -> GetsZ (k a) p y -> GetsZ (rbindM (rlift x) k) p y.
Proof. intros -> H. exact H. Qed.
Lemma GetsZ_string s : str_ok s = true -> GetsZ get_string_no_remaining_update (string_bytes s) s.
Proof. intros H pre rest t w c. apply get_string_nru_at, H. Qed.
Lemma GetsZ_u16 x : GetsZ get_u16_no_remaining_update (w16_bytes x) x.
Proof. intros pre rest t w c. apply get_u16_nru_at. Qed.
Lemma GetsZ_u32 x : GetsZ get_u32_no_remaining_update (w32_bytes x) x.
Proof. intros pre rest t w c. apply get_u32_nru_at. Qed.
Lemma GetsZ_u8 x : GetsZ get_u8_no_remaining_update [x] x.
Proof. intros pre rest t w c. apply (get_u8_nru_at pre x rest 0 t w c). Qed.
Lemma GetsZ_data d : fits (zlen d) = true -> GetsZ get_data_no_remaining_update (lp_bytes d) d.
Proof.
  intros H pre rest t w c. unfold get_data_no_remaining_update, lp_bytes. rewrite <- app_assoc.
  rewrite (bindM_ok _ _ _ _ _ (get_u32_nru_at _ _ _ _ _ _ _)). unfold fits in H. pose proof (zlen_nonneg d).
  rewrite w32_to_Z_small by lia. rewrite (bindM_ok _ _ _ _ _ (take_at _ d rest _ _ _ _ _ eq_refl)).
  cbv beta. unfold set_rem, at_. cbn [r_data r_pos r_tag r_warn r_checked]. rewrite <- !app_assoc. reflexivity.
Qed.
Definition wf_bytes (w : WaveForm) : bytes :=
  w16_bytes (wf_format_tag w) ++ w16_bytes (wf_channels w) ++ w32_bytes (wf_samples_per_sec w) ++
  w32_bytes (wf_avg_bytes_per_sec w) ++ w16_bytes (wf_block_align w) ++ w16_bytes (wf_bits_per_sample w) ++ w16_bytes (wf_cb_size w).
Lemma GetsZ_wave w : GetsZ read_wave_form (wf_bytes w) w.
Proof.
  destruct w as [w1 w2 w3 w4 w5 w6 w7]. unfold wf_bytes, read_wave_form.
  cbn [wf_format_tag wf_channels wf_samples_per_sec wf_avg_bytes_per_sec wf_block_align wf_bits_per_sample wf_cb_size].
  do 6 (eapply GetsZ_bind; [first [apply GetsZ_u16 | apply GetsZ_u32]|]).
  rewrite <- (app_nil_r (w16_bytes w7)). eapply GetsZ_bind; [apply GetsZ_u16|]. apply GetsZ_ret.
Qed.
Lemma wbody_wave w : wbody (write_wave_form w) (wf_bytes w).
Proof.
  unfold write_wave_form, wf_bytes. do 6 (apply wbody_seq; [first [apply wbody_u16 | apply wbody_u32]|]). apply wbody_u16.
Qed.

Definition internal_bytes (s : rstring) : bytes := match s with [] => w32_bytes (Z_to_w32 1) ++ [x00] | _ => string_bytes s end.
Lemma GetsZ_internal s : str_ok s = true -> GetsZ get_string_no_remaining_update (internal_bytes s) s.
Proof.
  intros H. destruct s as [|c s]; [|apply GetsZ_string, H].
  intros pre rest t w ck. unfold internal_bytes, get_string_no_remaining_update. rewrite <- app_assoc.
  rewrite (bindM_ok _ _ _ _ _ (get_u32_nru_at _ _ _ _ _ _ _)). change (w32_to_Z (Z_to_w32 1)) with 1.
  unfold get_str_no_remaining_update.
  rewrite (bindM_ok _ _ _ _ _ (scan_at_padded _ [] [] rest 0 t w ck 1 eq_refl eq_refl)).
  unfold rret. cbn [decode_latin1 map app]. rewrite <- app_assoc. reflexivity.
Qed.
Lemma wbody_internal s : str_ok s = true -> wbody (write_string_empty_zero s) (internal_bytes s).
Proof.
  intros H. destruct s as [|c s]; [|apply wbody_string, H].
  unfold write_string_empty_zero, internal_bytes. apply wbody_seq; [apply wbody_u32|apply wbody_u8].
Qed.

Definition Sound_ok (s : SoundData) : bool :=
  str_ok (so_name s) && str_ok (so_path s) && str_ok (so_internal_name s) && fits (zlen (so_data s)).
Lemma sound_fits_iff s : Sound_ok s = true <-> sound_fits s.
Proof.
  unfold Sound_ok, sound_fits, data_fits. rewrite !andb_true_iff, !string_fits_iff, size_fits_iff. tauto.
Qed.
Lemma lp_le32 d : lp_bytes d = le32 (zlen d) ++ d.
Proof. unfold lp_bytes. rewrite le32_w32. reflexivity. Qed.
Definition tail_bytes (version : Z) (s : SoundData) : bytes :=
  if 1031 <=? version
  then w32_bytes (so_volume s) ++ w32_bytes (so_balance s) ++ w32_bytes (so_fade s) ++ w32_bytes (so_volume s) else [].
Lemma sound_layout_eq version s : sound_layout version s =
  string_bytes (so_name s) ++ string_bytes (so_path s) ++ internal_bytes (so_internal_name s) ++
  (if is_wav (so_path s) then wf_bytes (so_wave_form s) else []) ++ lp_bytes (so_data s) ++
  [OutputTarget_to_u8 (so_output_target s)] ++ tail_bytes version s.
Proof.
  unfold sound_layout, tail_bytes. rewrite !string_payload_eq, lp_le32, <- !app_assoc. do 2 f_equal.
  f_equal. destruct (so_internal_name s); [reflexivity|symmetry; apply string_payload_eq].
Qed.
Lemma sound_gets version s : Sound_ok s = true -> GetsZ (Sound_read_m version) (sound_layout version s) (kept_at version s).
Proof.
  intros H. rewrite sound_layout_eq. unfold Sound_ok in H. rewrite !andb_true_iff in H. destruct H as [[[H1 H2] H3] H4].
  unfold Sound_read_m.
  eapply GetsZ_bind; [apply GetsZ_string, H1|]. eapply GetsZ_bind; [apply GetsZ_string, H2|].
  eapply GetsZ_bind; [apply GetsZ_internal, H3|].
  eapply (GetsZ_bind _ _ _ _ (if is_wav (so_path s) then so_wave_form s else WaveForm_new)).
  { destruct (is_wav (so_path s)); [apply GetsZ_wave|apply GetsZ_ret]. }
  eapply GetsZ_bind; [apply GetsZ_data, H4|]. eapply GetsZ_bind; [apply GetsZ_u8|].
  eapply GetsZ_lift; [apply OutputTarget_roundtrip|]. unfold tail_bytes, kept_at, NEW_SOUND_FORMAT_VERSION.
  destruct (1031 <=? version) eqn:E.
  - replace (version <? 1031) with false by lia.
    do 3 (eapply GetsZ_bind; [apply GetsZ_u32|]). rewrite <- (app_nil_r (w32_bytes (so_volume s))).
    eapply GetsZ_bind; [apply GetsZ_u32|]. apply GetsZ_ret.
  - replace (version <? 1031) with true by lia. apply GetsZ_ret.
Qed.
Lemma sound_wbody version s : Sound_ok s = true -> wbody (Sound_write_m version s) (sound_layout version s).
Proof.
  intros H. rewrite sound_layout_eq. unfold Sound_ok in H. rewrite !andb_true_iff in H. destruct H as [[[H1 H2] H3] H4].
  unfold Sound_write_m, NEW_SOUND_FORMAT_VERSION, tail_bytes.
  apply wbody_seq; [apply wbody_string, H1|]. apply wbody_seq; [apply wbody_string, H2|].
  apply wbody_seq; [apply wbody_internal, H3|].
  apply wbody_seq; [destruct (is_wav (so_path s)); [apply wbody_wave|apply wbody_skip]|].
  apply wbody_seq; [apply wbody_lp, H4|]. apply wbody_seq; [apply wbody_u8|].
  destruct (1031 <=? version); [|apply wbody_skip].
  do 3 (apply wbody_seq; [apply wbody_u32|]). apply wbody_u32.
Qed.
Lemma sound_stored version s : sound_fits s ->
  Sound_write version s = Ok (sound_layout version s) /\
  forall checked rest, Sound_read checked version (sound_layout version s ++ rest) = Ok (kept_at version s).
Proof.
  intros H. apply sound_fits_iff in H. split.
  - unfold Sound_write. rewrite (sound_wbody version s H). reflexivity.
  - intros checked rest. unfold Sound_read. pose proof (sound_gets version s H [] rest ""%string true checked) as E.
    unfold at_ in E. cbn [app] in E. change (zlen (@nil byte)) with 0 in E. unfold rd_new. rewrite E. reflexivity.
Qed.

(** ** What the reader accepts *)
Lemma Yields_string_nru : Yields get_string_no_remaining_update is_str_ok.
Proof. eapply Yields_bind; [apply Yields_any, Keeps_u32_nru|]. intros n _. apply Yields_str_nru. Qed.
Lemma Yields_data_nru : Yields get_data_no_remaining_update (fun d => fits (zlen d) = true).
Proof.
  eapply Yields_bind; [apply Yields_any, Keeps_u32_nru|]. intros n _. apply (Yields_get_data (w32_to_Z n)).
Qed.
Lemma Keeps_wave : Keeps read_wave_form.
Proof. unfold read_wave_form. repeat (apply Keeps_bind; [first [apply Keeps_u16_nru|apply Keeps_u32_nru]|intros]). apply Keeps_ret. Qed.
Lemma sound_yields version : Yields (Sound_read_m version) (fun s => Sound_ok s = true /\ kept_at version s = s).
Proof.
  unfold Sound_read_m.
  eapply Yields_bind; [apply Yields_string_nru|intros name H1]. eapply Yields_bind; [apply Yields_string_nru|intros path H2].
  eapply Yields_bind; [apply Yields_string_nru|intros iname H3].
  eapply (Yields_bind _ _ (fun w => is_wav path = false -> w = WaveForm_new)).
  { destruct (is_wav path); [|apply Yields_ret; reflexivity].
    eapply Yields_weaken; [|apply Yields_any, Keeps_wave]. intros w _ E. discriminate E. }
  intros w Hw. eapply Yields_bind; [apply Yields_data_nru|intros d Hd].
  eapply Yields_bind; [apply Yields_any, Keeps_u8_nru|intros tb _]. eapply Yields_bind; [apply Yields_any, Keeps_lift|intros tgt _].
  assert (HW : (if is_wav path then w else WaveForm_new) = w) by (destruct (is_wav path); [reflexivity|symmetry; auto]).
  unfold NEW_SOUND_FORMAT_VERSION. destruct (version <? 1031) eqn:E.
  - apply Yields_ret. split; [unfold Sound_ok; cbn; unfold is_str_ok in *; rewrite H1, H2, H3, Hd; reflexivity|].
    unfold kept_at. cbn [so_name so_path so_wave_form so_data so_internal_name so_fade so_volume so_balance so_output_target].
    replace (1031 <=? version) with false by lia. unfold WaveForm_new in HW; rewrite HW. reflexivity.
  - do 4 (eapply Yields_bind; [apply Yields_any, Keeps_u32_nru|intros ? _]). apply Yields_ret.
    split; [unfold Sound_ok; cbn; unfold is_str_ok in *; rewrite H1, H2, H3, Hd; reflexivity|].
    unfold kept_at. cbn [so_name so_path so_wave_form so_data so_internal_name so_fade so_volume so_balance so_output_target].
    replace (1031 <=? version) with true by lia. unfold WaveForm_new in HW; rewrite HW. reflexivity.
Qed.
Lemma sound_resave checked version input s : size_fits (zlen input) -> Sound_read checked version input = Ok s ->
  exists output, Sound_write version s = Ok output /\ forall checked', Sound_read checked' version output = Ok s.
Proof.
  intros Hf E. unfold Sound_read in E. destruct (Sound_read_m version (rd_new checked input)) as [[s' r]|] eqn:Em; [|discriminate].
  injection E as <-. apply size_fits_iff in Hf. destruct (sound_yields version (rd_new checked input) _ _ Hf Em) as [[Hok Hk] _].
  destruct (sound_stored version s' (proj1 (sound_fits_iff s') Hok)) as [W Rd].
  exists (sound_layout version s'). split; [exact W|]. intros checked'. specialize (Rd checked' []). rewrite app_nil_r, Hk in Rd. exact Rd.
Qed.
(** A file of the old format is too short for the new one. *)
Lemma take_end pre k t w c : 0 < k -> take k (at_ pre [] 0 t w c) = Panic.
Proof.
  intros H. unfold take, at_. cbn [r_data r_pos]. rewrite app_nil_r. unfold slice. pose proof (zlen_nonneg pre).
  replace (0 <=? zlen pre) with true by lia. replace (0 <=? k) with true by lia. replace (zlen pre + k <=? zlen pre) with false by lia.
  reflexivity.
Qed.

(** ** WAV headers *)
Lemma CGets_wav_bytes p n : n = zlen p -> CGets (wav_bytes n) p p.
Proof.
  intros -> rest. unfold wav_bytes. rewrite zlen_app. pose proof (zlen_nonneg rest). replace (zlen p + zlen rest <? zlen p) with false by lia.
  rewrite firstn_zlen, skipn_zlen. reflexivity.
Qed.
Lemma CGets_lift {A B} (x : res A) (a : A) (k : A -> cu_M B) p y : x = Ok a -> CGets (k a) p y -> CGets (cbind (cu_lift x) k) p y.
Proof. intros -> H. exact H. Qed.
Lemma CGets_wav_u16 x : CGets wav_u16 (w16_bytes x) x.
Proof. intros rest. unfold wav_u16, cbind. rewrite (CGets_wav_bytes (w16_bytes x) 2 eq_refl rest). destruct x. reflexivity. Qed.
Lemma CGets_wav_u32 x : CGets wav_u32 (w32_bytes x) x.
Proof. intros rest. unfold wav_u32, cbind. rewrite (CGets_wav_bytes (w32_bytes x) 4 eq_refl rest). destruct x. reflexivity. Qed.
Lemma bytes_eqb_eq a b : bytes_eqb a b = true <-> a = b.
Proof.
  revert b. induction a as [|x a IH]; intros [|y b]; cbn; try (split; (reflexivity || discriminate)).
  rewrite andb_true_iff, byte_eqb_eq, IH. split; [intros [-> ->]; reflexivity|intros E; injection E as -> ->; auto].
Qed.
Lemma CGets_expect e : CGets (wav_expect e) e tt.
Proof.
  intros rest. unfold wav_expect, cbind. rewrite (CGets_wav_bytes e _ eq_refl rest). rewrite (proj2 (bytes_eqb_eq e e) eq_refl). reflexivity.
Qed.
Lemma wav_bytes_inv n b x b' : 0 <= n -> wav_bytes n b = Ok (x, b') -> b = x ++ b' /\ zlen x = n.
Proof.
  intros Hn. unfold wav_bytes. destruct (zlen b <? n) eqn:E; [discriminate|]. intros H. injection H as <- <-.
  split; [symmetry; apply firstn_skipn|]. unfold zlen in *. rewrite firstn_length. lia.
Qed.
Lemma wav_u32_inv b x b' : wav_u32 b = Ok (x, b') -> b = w32_bytes x ++ b'.
Proof.
  unfold wav_u32, cbind. destruct (wav_bytes 4 b) as [[y b1]|] eqn:E; [|discriminate].
  apply wav_bytes_inv in E; [|lia]. destruct E as [-> HL].
  destruct y as [|y0 [|y1 [|y2 [|y3 [|]]]]]; try (unfold zlen in HL; cbn in HL; lia); cbn; intros H; try discriminate H.
  injection H as <- <-. reflexivity.
Qed.
Lemma wav_u16_inv b x b' : wav_u16 b = Ok (x, b') -> b = w16_bytes x ++ b'.
Proof.
  unfold wav_u16, cbind. destruct (wav_bytes 2 b) as [[y b1]|] eqn:E; [|discriminate].
  apply wav_bytes_inv in E; [|lia]. destruct E as [-> HL].
  destruct y as [|y0 [|y1 [|]]]; try (unfold zlen in HL; cbn in HL; lia); cbn; intros H; try discriminate H.
  injection H as <- <-. reflexivity.
Qed.
Lemma wav_expect_inv e b x b' : wav_expect e b = Ok (x, b') -> b = e ++ b'.
Proof.
  unfold wav_expect, cbind. destruct (wav_bytes (zlen e) b) as [[y b1]|] eqn:E; [|discriminate].
  apply wav_bytes_inv in E; [|apply zlen_nonneg]. destruct E as [-> HL].
  destruct (bytes_eqb y e) eqn:Eb; [|discriminate]. apply bytes_eqb_eq in Eb. subst y. intros H. injection H as <- <-. reflexivity.
Qed.
(** the bytes of a format chunk *)
Definition fmt_body (f : FmtChunk) : bytes :=
  w16_bytes (fc_format_tag f) ++ w16_bytes (fc_channels f) ++ w32_bytes (fc_samples_per_sec f) ++ w32_bytes (fc_avg_bytes_per_sec f) ++
  w16_bytes (fc_block_align f) ++ w16_bytes (fc_bits_per_sample f).
Definition fmt_ext (f : FmtChunk) : bytes :=
  match fc_extension_size f with Some n => w16_bytes n ++ fc_extension_fields f | None => [] end.
Definition fmt_pad_len (f : FmtChunk) : Z := w32_to_Z (fc_fmt_size f) mod 2.
Lemma zlen_fmt_body f : zlen (fmt_body f) = 16.
Proof. unfold fmt_body. rewrite !zlen_app, !zlen_w16_bytes, !zlen_w32_bytes. reflexivity. Qed.
Ltac cinv H := apply cbind_inv in H; let x := fresh "x" in let b := fresh "b" in let E := fresh "E" in destruct H as (x & b & E & H).
Lemma read_fmt_inv n b f rest : read_fmt_chunk n b = Ok (f, rest) ->
  fc_fmt_size f = n /\ exists pad, zlen pad = w32_to_Z n mod 2 /\ b = fmt_body f ++ fmt_ext f ++ pad ++ rest /\
  (w32_to_Z n = 16 \/ (18 <= w32_to_Z n /\ zlen (fmt_ext f) = w32_to_Z n - 16)).
Proof.
  unfold read_fmt_chunk. cbv zeta. pose proof (w32_to_Z_range n) as Hr. set (z := w32_to_Z n) in *.
  destruct (negb (z =? 16) && (z <? 18)) eqn:Es; [discriminate|]. intros H. cinv H.
  apply wav_bytes_inv in E; [|unfold even_size; destruct (z mod 2 =? 0); lia]. destruct E as [-> HL].
  match type of H with match ?m _ with _ => _ end = _ => destruct (m x) as [[f' b']|] eqn:Em end; [|discriminate].
  cinv Em. cinv Em. cinv Em. cinv Em. cinv Em. cinv Em.
  apply wav_u16_inv in E, E0, E3, E4. apply wav_u32_inv in E1, E2. subst x b b1 b2 b3 b4.
  destruct (18 <=? z) eqn:E18.
  - cinv Em. cinv Em. injection Em as <- <-. apply wav_u16_inv in E. apply wav_bytes_inv in E0; [|lia]. destruct E0 as [-> HL2]. subst b5.
    cbn [negb andb] in H. injection H as <- <-. split; [reflexivity|]. exists b1.
    rewrite !zlen_app, !zlen_w16_bytes, !zlen_w32_bytes in HL. unfold even_size in HL.
    split; [|split].
    2:{ unfold fmt_body, fmt_ext. cbn [fc_format_tag fc_channels fc_samples_per_sec fc_avg_bytes_per_sec fc_block_align fc_bits_per_sample fc_extension_size fc_extension_fields].
      rewrite <- !app_assoc. reflexivity. }
    + destruct (z mod 2 =? 0) eqn:E2; lia.
    + right. split; [lia|]. unfold fmt_ext. cbn [fc_extension_size fc_extension_fields]. rewrite zlen_app, zlen_w16_bytes. lia.
  - assert (z = 16) by lia. injection Em as <- <-. rewrite !zlen_app, !zlen_w16_bytes, !zlen_w32_bytes in HL.
    replace (even_size z) with 16 in HL by (rewrite H0; reflexivity). assert (b5 = []) by (apply zlen_zero; lia). subst b5.
    cbn [negb andb] in H. destruct (looks_like_stray_extension_size b0) eqn:El.
    + cinv H. injection H as <- <-. apply wav_u16_inv in E. subst b0. split; [reflexivity|]. exists [].
      split; [rewrite H0; reflexivity|]. split; [|left; assumption].
      unfold fmt_body, fmt_ext. cbn [fc_format_tag fc_channels fc_samples_per_sec fc_avg_bytes_per_sec fc_block_align fc_bits_per_sample fc_extension_size fc_extension_fields].
      rewrite app_nil_r, <- !app_assoc. reflexivity.
    + injection H as <- <-. split; [reflexivity|]. exists []. split; [rewrite H0; reflexivity|]. split; [|left; assumption].
      unfold fmt_body, fmt_ext. cbn [fc_format_tag fc_channels fc_samples_per_sec fc_avg_bytes_per_sec fc_block_align fc_bits_per_sample fc_extension_size fc_extension_fields].
      rewrite app_nil_r, <- !app_assoc. reflexivity.
Qed.
Definition header_of (size : u32) (f : FmtChunk) (pre extra : bytes) (ds : u32) : WavHeader :=
  mkWavHeader size (fc_fmt_size f) (fc_format_tag f) (fc_channels f) (fc_samples_per_sec f) (fc_avg_bytes_per_sec f)
    (fc_block_align f) (fc_bits_per_sample f) (fc_extension_size f) (fc_extension_fields f) pre extra ds.
Lemma even_nonneg n : 0 <= n -> 0 <= even_size n.
Proof. unfold even_size. destruct (n mod 2 =? 0); lia. Qed.
Lemma wav_chunks_inv fuel : forall size fmt pre extra b h rest, wav_chunks fuel size fmt pre extra b = Ok (h, rest) ->
  match fmt with
  | Some f => exists ex ds, b = ex ++ data_id ++ w32_bytes ds ++ rest /\ h = header_of size f pre (extra ++ ex) ds
  | None => exists pr f pad ex ds, b = pr ++ fmt_id ++ w32_bytes (fc_fmt_size f) ++ fmt_body f ++ fmt_ext f ++ pad ++ ex ++
              data_id ++ w32_bytes ds ++ rest /\ h = header_of size f (pre ++ pr) (extra ++ ex) ds /\
              zlen pad = w32_to_Z (fc_fmt_size f) mod 2
  end.
Proof.
  induction fuel as [|fuel IH]; intros size fmt pre extra b h rest H; [discriminate H|].
  cbn [wav_chunks] in H. cinv H. apply wav_bytes_inv in E; [|lia]. destruct E as [-> HL].
  destruct (negb (is_chunk_id x)) eqn:Ei; [discriminate|]. cinv H. apply wav_u32_inv in E. subst b0.
  destruct (bytes_eqb x data_id) eqn:Ed.
  { apply bytes_eqb_eq in Ed. subst x. destruct fmt as [f|]; [|discriminate]. injection H as <- <-.
    exists [], x0. rewrite app_nil_r. split; reflexivity. }
  destruct (bytes_eqb x fmt_id) eqn:Ef.
  { apply bytes_eqb_eq in Ef. subst x. destruct fmt as [f|]; [discriminate|]. cinv H.
    apply read_fmt_inv in E. destruct E as (E1 & pad & Hp & -> & _). apply IH in H. destruct H as (ex & ds & -> & ->).
    exists [], x, pad, ex, ds. rewrite app_nil_r, E1. cbn [app]. split; [reflexivity|]. split; [reflexivity|exact Hp]. }
  cinv H. pose proof (w32_to_Z_range x0). apply wav_bytes_inv in E; [|apply even_nonneg; lia]. destruct E as [-> HL2].
  destruct fmt as [f|]; apply IH in H.
  - destruct H as (ex & ds & -> & ->). exists ((x ++ w32_bytes x0 ++ x1) ++ ex), ds. rewrite <- !app_assoc. split; reflexivity.
  - destruct H as (pr & f & pad & ex & ds & -> & -> & Hp). exists ((x ++ w32_bytes x0 ++ x1) ++ pr), f, pad, ex, ds.
    rewrite <- !app_assoc. split; [reflexivity|]. split; [reflexivity|exact Hp].
Qed.
Lemma write_header_of size f pre extra ds : write_wav_header (header_of size f pre extra ds) =
  RIFF_id ++ w32_bytes size ++ WAVE_id ++ pre ++ fmt_id ++ w32_bytes (fc_fmt_size f) ++ fmt_body f ++ fmt_ext f ++
  repeat x00 (Z.to_nat (w32_to_Z (fc_fmt_size f) mod 2)) ++ extra ++ data_id ++ w32_bytes ds.
Proof.
  unfold write_wav_header, header_of, fmt_body, fmt_ext.
  cbn [wh_size wh_fmt_size wh_format_tag wh_channels wh_samples_per_sec wh_avg_bytes_per_sec wh_block_align wh_bits_per_sample wh_extension_size wh_extension_fields wh_pre_fmt_fields wh_extra_fields wh_data_size].
  rewrite <- !app_assoc. do 13 f_equal.
  assert (H : w32_to_Z (fc_fmt_size f) mod 2 = 0 \/ w32_to_Z (fc_fmt_size f) mod 2 = 1) by lia.
  destruct H as [-> | ->]; reflexivity.
Qed.
(** The header read from a file stands for the bytes that were consumed, up to the value of a padding byte. *)
Lemma wav_rewritten input h rest : read_wav_header input = Ok (h, rest) ->
  exists a pad b, input = a ++ pad ++ b ++ rest /\ write_wav_header h = a ++ repeat x00 (List.length pad) ++ b /\
    zlen pad = w32_to_Z (wh_fmt_size h) mod 2.
Proof.
  unfold read_wav_header. intros H. cinv H. cinv H. cinv H. apply wav_expect_inv in E, E1. apply wav_u32_inv in E0. subst.
  apply wav_chunks_inv in H. destruct H as (pr & f & pad & ex & ds & -> & -> & Hp).
  exists (RIFF_id ++ w32_bytes x0 ++ WAVE_id ++ pr ++ fmt_id ++ w32_bytes (fc_fmt_size f) ++ fmt_body f ++ fmt_ext f), pad,
    (ex ++ data_id ++ w32_bytes ds).
  split; [rewrite <- !app_assoc; reflexivity|]. split; [|exact Hp].
  rewrite write_header_of. cbn [app]. rewrite <- !app_assoc. do 10 f_equal. unfold zlen in Hp. lia.
Qed.
Definition CSafe {A} (m : cu_M A) (b : bytes) : Prop := match m b with Ok (_, b') => (List.length b' <= List.length b)%nat | Fail f => f = ErrF end.
Lemma CSafe_bind {A B} (m : cu_M A) (k : A -> cu_M B) b : CSafe m b -> (forall x b', m b = Ok (x, b') -> (List.length b' <= List.length b)%nat -> CSafe (k x) b') -> CSafe (cbind m k) b.
Proof.
  unfold CSafe, cbind. intros H1 H2. destruct (m b) as [[x b']|]; [|exact H1]. specialize (H2 x b' eq_refl H1).
  destruct (k x b') as [[y b2]|]; [lia|exact H2].
Qed.
Lemma CSafe_bytes n b : CSafe (wav_bytes n) b.
Proof. unfold CSafe, wav_bytes. destruct (_ <? _); [reflexivity|]. rewrite skipn_length. lia. Qed.
Lemma CSafe_lift {A} (x : res A) b : (forall f, x = Fail f -> f = ErrF) -> CSafe (cu_lift x) b.
Proof. intros H. unfold CSafe, cu_lift. destruct x; [lia|]. apply H; reflexivity. Qed.
Lemma CSafe_err {A} b : CSafe (cu_lift (@Fail A ErrF)) b.
Proof. reflexivity. Qed.
Lemma CSafe_ret {A} (x : A) b : CSafe (cret x) b.
Proof. unfold CSafe, cret. lia. Qed.
Lemma CSafe_u16 b : CSafe wav_u16 b.
Proof.
  apply CSafe_bind; [apply CSafe_bytes|]. intros x b' E _. apply wav_bytes_inv in E; [|lia]. destruct E as [_ E]. apply CSafe_lift.
  destruct x as [|? [|? [|]]]; try (unfold zlen in E; cbn in E; lia). discriminate.
Qed.
Lemma CSafe_u32 b : CSafe wav_u32 b.
Proof.
  apply CSafe_bind; [apply CSafe_bytes|]. intros x b' E _. apply wav_bytes_inv in E; [|lia]. destruct E as [_ E]. apply CSafe_lift.
  destruct x as [|? [|? [|? [|? [|]]]]]; try (unfold zlen in E; cbn in E; lia). discriminate.
Qed.
Lemma CSafe_expect e b : CSafe (wav_expect e) b.
Proof. apply CSafe_bind; [apply CSafe_bytes|]. intros x b' _ _. destruct (bytes_eqb x e); [apply CSafe_ret|apply CSafe_err]. Qed.
Lemma CSafe_fmt n b : CSafe (read_fmt_chunk n) b.
Proof.
  unfold read_fmt_chunk. cbv zeta. destruct (_ && _); [apply CSafe_err|].
  apply CSafe_bind; [apply CSafe_bytes|]. intros chunk b' _ _.
  match goal with |- CSafe (fun r => match ?m _ with _ => _ end) _ => assert (HS : CSafe m chunk) end.
  { repeat first [apply CSafe_ret | apply CSafe_bind; [first [apply CSafe_u16 | apply CSafe_u32 | apply CSafe_bytes]|intros] | match goal with |- CSafe (if ?c then _ else _) _ => destruct c end]. }
  unfold CSafe in *. match goal with |- match match ?m with _ => _ end with _ => _ end => destruct m as [[f c']|] end; [|exact HS].
  destruct (_ && _); [|lia].
  match goal with |- match ?m b' with _ => _ end => change (CSafe m b') end. apply CSafe_bind; [apply CSafe_u16|intros]. apply CSafe_ret.
Qed.
Lemma wav_chunks_term fuel : forall size fmt pre extra b, (List.length b < fuel)%nat -> CSafe (wav_chunks fuel size fmt pre extra) b.
Proof.
  induction fuel as [|fuel IH]; intros size fmt pre extra b H; [lia|]. cbn [wav_chunks].
  apply CSafe_bind; [apply CSafe_bytes|]. intros id b1 E1 _. apply wav_bytes_inv in E1; [|lia]. destruct E1 as [-> HL].
  destruct (negb _); [apply CSafe_err|].
  apply CSafe_bind; [apply CSafe_u32|]. intros sz b2 E2 HL2. assert (List.length b1 < fuel)%nat by (rewrite app_length in H; unfold zlen in HL; lia).
  destruct (bytes_eqb _ _); [destruct fmt; [apply CSafe_ret|apply CSafe_err]|].
  destruct (bytes_eqb _ _).
  - destruct fmt; [apply CSafe_err|]. apply CSafe_bind; [apply CSafe_fmt|]. intros f b3 _ HL3. apply IH. lia.
  - apply CSafe_bind; [apply CSafe_bytes|]. intros p b3 _ HL3. cbv zeta. destruct fmt; apply IH; lia.
Qed.
Lemma wav_header_term input : (exists h rest, read_wav_header input = Ok (h, rest)) \/ read_wav_header input = Err.
Proof.
  assert (H : CSafe read_wav_header input).
  { unfold read_wav_header. apply CSafe_bind; [apply CSafe_expect|intros]. apply CSafe_bind; [apply CSafe_u32|intros].
    apply CSafe_bind; [apply CSafe_expect|intros]. unfold CSafe. cbv beta. apply wav_chunks_term. lia. }
  unfold CSafe in H. destruct (read_wav_header input) as [[h rest]|f]; [left; eauto|right; rewrite H; reflexivity].
Qed.

(** ** Reading a file made of chunks *)
Lemma is_chunk_id_iff s : printable_id s -> is_chunk_id (list_byte_of_string s) = true /\ zlen (list_byte_of_string s) = 4.
Proof.
  intros [H1 H2]. split.
  - unfold is_chunk_id. apply forallb_forall. rewrite Forall_forall in H2. intros x Hx. specialize (H2 x Hx). lia.
  - unfold zlen. rewrite list_byte_of_string_length. lia.
Qed.
Lemma lbs_eq a b : bytes_eqb (list_byte_of_string a) (list_byte_of_string b) = true -> a = b.
Proof. intros H. apply bytes_eqb_eq in H. rewrite <- (string_of_list_byte_of_string a), H. apply string_of_list_byte_of_string. Qed.
Lemma even_size_padded c : padded c -> even_size (zlen (ck_content c)) = zlen (ck_content c ++ ck_pad c) /\
  0 <= zlen (ck_content c) < 4294967296.
Proof.
  intros [H1 H2]. pose proof (zlen_nonneg (ck_content c)). change (2 ^ 32) with 4294967296 in H1. split; [|lia].
  rewrite zlen_app. unfold even_size. destruct (zlen (ck_content c) mod 2 =? 0) eqn:E; lia.
Qed.
(** one round over a chunk the reader does not know *)
Lemma wav_chunks_other fuel size fmt pre extra c b : other_chunk c ->
  wav_chunks (S fuel) size fmt pre extra (chunk_layout c ++ b) =
  match fmt with
  | Some _ => wav_chunks fuel size fmt pre (extra ++ chunk_layout c) b
  | None => wav_chunks fuel size fmt (pre ++ chunk_layout c) extra b
  end.
Proof.
  intros (H1 & H2 & H3 & H4). apply is_chunk_id_iff in H1. destruct H1 as [H1 HL]. apply even_size_padded in H4. destruct H4 as [H4 H5].
  cbn [wav_chunks]. unfold chunk_layout at 1. rewrite <- !app_assoc. unfold cbind at 1.
  rewrite (CGets_wav_bytes _ 4 (eq_sym HL) _). rewrite H1. cbn [negb].
  rewrite <- le32_w32. unfold cbind at 1. rewrite (CGets_wav_u32 _ _).
  destruct (bytes_eqb (list_byte_of_string (ck_id c)) data_id) eqn:Ed; [apply lbs_eq in Ed; contradiction|].
  destruct (bytes_eqb (list_byte_of_string (ck_id c)) fmt_id) eqn:Ef; [apply lbs_eq in Ef; contradiction|].
  unfold cbind. rewrite w32_to_Z_small by lia. rewrite app_assoc. rewrite (CGets_wav_bytes _ _ H4 _). cbv zeta.
  unfold chunk_layout. rewrite <- le32_w32. destruct fmt; reflexivity.
Qed.
Lemma chunk_len c : padded c -> printable_id (ck_id c) -> (8 <= List.length (chunk_layout c))%nat.
Proof.
  intros _ H. apply is_chunk_id_iff in H. destruct H as [_ H]. unfold chunk_layout. rewrite !app_length. unfold zlen in H. cbn [le32 List.length]. lia.
Qed.
Lemma wav_chunks_others cs : forall fuel size fmt pre extra b, Forall other_chunk cs -> (List.length (flat_map chunk_layout cs ++ b) < fuel)%nat ->
  exists fuel', (List.length b < fuel')%nat /\
  wav_chunks fuel size fmt pre extra (flat_map chunk_layout cs ++ b) =
  match fmt with
  | Some _ => wav_chunks fuel' size fmt pre (extra ++ flat_map chunk_layout cs) b
  | None => wav_chunks fuel' size fmt (pre ++ flat_map chunk_layout cs) extra b
  end.
Proof.
  induction cs as [|c cs IH]; intros fuel size fmt pre extra b HF HL.
  - exists fuel. cbn [flat_map app] in *. split; [exact HL|]. rewrite !app_nil_r. destruct fmt; reflexivity.
  - apply Forall_cons_iff in HF. destruct HF as [Hc HF]. cbn [flat_map] in *. rewrite <- app_assoc in *.
    assert (HC := Hc). destruct HC as (P1 & _ & _ & P2). pose proof (chunk_len c P2 P1). rewrite app_length in HL.
    destruct fuel as [|fuel]; [lia|]. rewrite wav_chunks_other by exact Hc.
    destruct fmt as [f|].
    + destruct (IH fuel size (Some f) pre (extra ++ chunk_layout c) b HF ltac:(lia)) as (fuel' & H1 & H2).
      exists fuel'. split; [exact H1|]. rewrite H2, <- app_assoc. reflexivity.
    + destruct (IH fuel size None (pre ++ chunk_layout c) extra b HF ltac:(lia)) as (fuel' & H1 & H2).
      exists fuel'. split; [exact H1|]. rewrite H2, <- app_assoc. reflexivity.
Qed.
(** a format chunk, with or without extension *)
Definition fmt_of (n : u32) (format channels : u16) (rate bps : u32) (align bits : u16) (ext : option (u16 * bytes)) : FmtChunk :=
  mkFmtChunk n format channels rate bps align bits (match ext with Some (e, _) => Some e | None => None end)
    (match ext with Some (_, x) => x | None => [] end).
Definition fmt_content (format channels : u16) (rate bps : u32) (align bits : u16) (ext : option (u16 * bytes)) : bytes :=
  fmt_fields format channels rate bps align bits ++ match ext with Some (e, x) => w16_bytes e ++ x | None => [] end.
Lemma zlen_fmt_fields format channels rate bps align bits : zlen (fmt_fields format channels rate bps align bits) = 16.
Proof. unfold fmt_fields. rewrite !zlen_app, !zlen_w16_bytes, !zlen_w32_bytes. reflexivity. Qed.
Lemma is_chunk_id_stray b : is_chunk_id (firstn 4 b) = true -> looks_like_stray_extension_size b = false.
Proof. intros H. unfold looks_like_stray_extension_size. rewrite H. destruct (zlen b <? 6); reflexivity. Qed.
Lemma read_fmt_ok format channels rate bps align bits ext pad rest :
  let content := fmt_content format channels rate bps align bits ext in
  zlen content < 4294967296 -> zlen pad = zlen content mod 2 ->
  (ext = None -> is_chunk_id (firstn 4 rest) = true) ->
  read_fmt_chunk (Z_to_w32 (zlen content)) (content ++ pad ++ rest) =
  Ok (fmt_of (Z_to_w32 (zlen content)) format channels rate bps align bits ext, rest).
Proof.
  cbv zeta. set (content := fmt_content _ _ _ _ _ _ _). intros H1 H2 H3. pose proof (zlen_nonneg content) as H0.
  unfold read_fmt_chunk. cbv zeta. rewrite w32_to_Z_small by lia.
  assert (HL : zlen content = 16 + match ext with Some (_, x) => 2 + zlen x | None => 0 end).
  { unfold content, fmt_content. rewrite zlen_app, zlen_fmt_fields. destruct ext as [[e x]|]; [rewrite zlen_app, zlen_w16_bytes|]; reflexivity. }
  assert (HX : forall e x, ext = Some (e, x) -> 0 <= zlen x) by (intros; apply zlen_nonneg).
  replace (negb (zlen content =? 16) && (zlen content <? 18)) with false by (destruct ext as [[e x]|]; [specialize (HX e x eq_refl)|]; lia).
  unfold cbind at 1. rewrite app_assoc.
  rewrite (CGets_wav_bytes (content ++ pad) _) by (rewrite zlen_app; unfold even_size; destruct (zlen content mod 2 =? 0) eqn:E; lia).
  assert (HC : content ++ pad = w16_bytes format ++ w16_bytes channels ++ w32_bytes rate ++ w32_bytes bps ++ w16_bytes align ++
    w16_bytes bits ++ match ext with Some (e, x) => w16_bytes e ++ x | None => [] end ++ pad)
    by (unfold content, fmt_content, fmt_fields; rewrite <- !app_assoc; reflexivity).
  match goal with |- match ?m ?c with _ => _ end = _ =>
    assert (EM : exists p, m c = Ok (fmt_of (Z_to_w32 (zlen content)) format channels rate bps align bits ext, p)) end.
  { rewrite HC.
    unfold cbind at 1. rewrite (CGets_wav_u16 _ _). unfold cbind at 1. rewrite (CGets_wav_u16 _ _). unfold cbind at 1. rewrite (CGets_wav_u32 _ _).
    unfold cbind at 1. rewrite (CGets_wav_u32 _ _). unfold cbind at 1. rewrite (CGets_wav_u16 _ _). unfold cbind at 1. rewrite (CGets_wav_u16 _ _).
    destruct ext as [[e x]|].
    - specialize (HX e x eq_refl). replace (18 <=? zlen content) with true by lia.
      rewrite <- !app_assoc. unfold cbind at 1. rewrite (CGets_wav_u16 _ _). unfold cbind at 1.
      rewrite (CGets_wav_bytes x _) by lia. exists pad. reflexivity.
    - replace (18 <=? zlen content) with false by lia. eexists. reflexivity. }
  destruct EM as (p & ->).
  destruct ext as [[e x]|].
  - specialize (HX e x eq_refl). replace (18 <=? zlen content) with true by lia. reflexivity.
  - rewrite is_chunk_id_stray by (apply H3; reflexivity). rewrite andb_false_r. reflexivity.
Qed.

(** the file: chunks, the format chunk, chunks, and the header of the data chunk *)
Lemma firstn4_app (a b : bytes) : zlen a = 4 -> firstn 4 (a ++ b) = a.
Proof. intros H. change 4%nat with (Z.to_nat 4). rewrite <- H. apply firstn_zlen. Qed.
Lemma wav_read size pre extra format channels rate bps align bits ext pad ds rest :
  let content := fmt_content format channels rate bps align bits ext in
  Forall other_chunk pre -> Forall other_chunk extra -> padded (mkChunk "fmt " content pad) ->
  read_wav_header (wav_head size (pre ++ [mkChunk "fmt " content pad] ++ extra) ds ++ rest) =
  Ok (header_of size (fmt_of (Z_to_w32 (zlen content)) format channels rate bps align bits ext)
        (flat_map chunk_layout pre) (flat_map chunk_layout extra) ds, rest).
Proof.
  cbv zeta. set (content := fmt_content _ _ _ _ _ _ _). intros Hpre Hextra [Hp1 Hp2]. cbn [ck_content ck_pad] in *. change (2 ^ 32) with 4294967296 in Hp1.
  unfold wav_head, read_wav_header. rewrite <- !app_assoc.
  unfold cbind at 1. rewrite (CGets_expect RIFF_id _). unfold cbind at 1. rewrite (CGets_wav_u32 _ _).
  unfold cbind at 1. rewrite (CGets_expect WAVE_id _). cbv beta.
  rewrite !flat_map_app, <- !app_assoc. cbn [flat_map]. rewrite app_nil_r.
  set (tl2 := flat_map chunk_layout extra ++ _). set (tl := chunk_layout (mkChunk "fmt " content pad) ++ tl2).
  destruct (wav_chunks_others pre (S (List.length (flat_map chunk_layout pre ++ tl))) size None [] [] tl Hpre ltac:(lia)) as (f1 & HL1 & ->).
  cbn [app]. unfold tl in *.
  assert (HL2 : (List.length tl2 + 8 < f1)%nat).
  { rewrite app_length in HL1. unfold chunk_layout in HL1. cbn [ck_id] in HL1. rewrite !app_length in HL1.
    cbn [list_byte_of_string List.length le32] in HL1. cbn in HL1. lia. }
  assert (EC : chunk_layout (mkChunk "fmt " content pad) ++ tl2 = fmt_id ++ le32 (zlen content) ++ content ++ pad ++ tl2)
    by (unfold chunk_layout; cbn [ck_id ck_content ck_pad]; rewrite <- !app_assoc; reflexivity).
  rewrite EC. clear EC. destruct f1 as [|f1]; [lia|]. cbn [wav_chunks].
  unfold cbind at 1. rewrite (CGets_wav_bytes fmt_id 4 eq_refl _).
  change (is_chunk_id fmt_id) with true. change (bytes_eqb fmt_id data_id) with false. change (bytes_eqb fmt_id fmt_id) with true.
  cbn [negb]. unfold cbind at 1. rewrite <- le32_w32, (CGets_wav_u32 _ _). unfold cbind at 1.
  assert (EF : read_fmt_chunk (Z_to_w32 (zlen content)) (content ++ pad ++ tl2) =
    Ok (fmt_of (Z_to_w32 (zlen content)) format channels rate bps align bits ext, tl2)).
  { apply (read_fmt_ok format channels rate bps align bits ext pad tl2); [fold content; lia|exact Hp2|].
      intros _. unfold tl2. destruct extra as [|c extra].
      - cbn [flat_map app]. reflexivity.
      - apply Forall_cons_iff in Hextra. destruct Hextra as [(P & _) _]. apply is_chunk_id_iff in P. destruct P as [P1 P2].
        cbn [flat_map]. unfold chunk_layout. rewrite <- !app_assoc. rewrite firstn4_app by exact P2. exact P1. }
  rewrite EF. unfold tl2 in *.
  match goal with |- wav_chunks f1 size (Some ?f) ?p [] (_ ++ ?b) = _ => destruct (wav_chunks_others extra f1 size (Some f) p [] b Hextra ltac:(lia)) as (f2 & HL3 & ->) end.
  destruct f2 as [|f2]; [cbn in HL3; lia|]. cbn [wav_chunks app]. change (list_byte_of_string "data") with data_id.
  unfold cbind at 1. rewrite (CGets_wav_bytes data_id 4 eq_refl _). change (is_chunk_id data_id) with true. cbn [negb].
  unfold cbind at 1. rewrite (CGets_wav_u32 _ _). reflexivity.
Qed.

(** ** Sounds as files *)
Lemma wav_export checked s : is_wav (so_path s) = true -> rate_fits (so_wave_form s) -> zlen (so_data s) < 2 ^ 32 - 36 ->
  w16_to_Z (wf_format_tag (so_wave_form s)) = 1 ->
  write_sound checked s = Ok (pcm_file (so_wave_form s) (byte_rate (so_wave_form s)) (so_data s)).
Proof.
  intros Hw [R1 R2] HL Hf. change (2 ^ 32) with 4294967296 in *. unfold write_sound. rewrite Hw. unfold write_wav_header2. rewrite Hf.
  change (1 =? 1) with true. cbv zeta. cbn [negb].
  set (w := so_wave_form s) in *. pose proof (w32_to_Z_range (wf_samples_per_sec w)). pose proof (w16_to_Z_range (wf_bits_per_sample w)).
  pose proof (w16_to_Z_range (wf_channels w)). pose proof (zlen_nonneg (so_data s)).
  assert (HA : forall z, z < 4294967296 -> u32_arith checked z = Ok (z mod 4294967296)).
  { intros z Hz. unfold u32_arith. replace (4294967296 <=? z) with false by lia. rewrite andb_false_r. reflexivity. }
  rewrite HA by exact R1. cbn [rbind]. rewrite (Z.mod_small (_ * _)) by nia. rewrite HA by exact R2. cbn [rbind].
  rewrite (Z.mod_small (zlen (so_data s))) by lia. rewrite HA by lia. cbn [rbind]. f_equal.
  rewrite !Z.mod_small by nia. fold (byte_rate w).
  change (Z_to_w32 16) with (Z_to_w32 (zlen (fmt_fields (wf_format_tag w) (wf_channels w) (wf_samples_per_sec w) (Z_to_w32 (byte_rate w)) (wf_block_align w) (wf_bits_per_sample w)))).
  unfold pcm_file. f_equal. unfold write_wav_header, wav_head. cbn [flat_map chunk_layout]. unfold chunk_layout. cbn [ck_id ck_content ck_pad].
  cbn [wh_size wh_fmt_size wh_format_tag wh_channels wh_samples_per_sec wh_avg_bytes_per_sec wh_block_align wh_bits_per_sample wh_extension_size wh_extension_fields wh_pre_fmt_fields wh_extra_fields wh_data_size].
  rewrite zlen_fmt_fields. change (w32_to_Z (Z_to_w32 16) mod 2 =? 1) with false. rewrite <- le32_w32. unfold fmt_fields.
  rewrite !app_nil_r, <- !app_assoc. cbn [app]. rewrite (Z.add_comm (zlen (so_data s)) 36). reflexivity.
Qed.
Lemma pcm_import w bps samples s0 : is_wav (so_path s0) = true -> w16_to_Z (wf_format_tag w) = 1 ->
  read_sound (pcm_file w bps samples) s0 =
  Ok (set_wave_and_data (mkWaveForm (wf_format_tag w) (wf_channels w) (wf_samples_per_sec w) (Z_to_w32 bps) (wf_block_align w) (wf_bits_per_sample w) (Z_to_w16 0)) samples s0).
Proof.
  intros Hw Hf. unfold read_sound, pcm_file. rewrite Hw.
  pose proof (wav_read (Z_to_w32 (36 + zlen samples)) [] [] (wf_format_tag w) (wf_channels w) (wf_samples_per_sec w) (Z_to_w32 bps) (wf_block_align w) (wf_bits_per_sample w) None [] (Z_to_w32 (zlen samples)) samples) as E.
  cbv zeta in E. unfold fmt_content in E. rewrite app_nil_r in E. cbn [app] in E. rewrite E; [|constructor|constructor|].
  2:{ split; cbn [ck_content ck_pad]; rewrite zlen_fmt_fields; reflexivity. }
  cbn [rbind]. unfold header_of, fmt_of. cbn [wh_format_tag fc_format_tag]. rewrite Hf. reflexivity.
Qed.

(** other formats: an 18 byte format chunk, the data size field holds [cb_size] *)
Lemma other_export checked s : is_wav (so_path s) = true -> rate_fits (so_wave_form s) -> zlen (so_data s) < 2 ^ 32 - 36 ->
  w16_to_Z (wf_format_tag (so_wave_form s)) <> 1 ->
  let w := so_wave_form s in
  write_sound checked s = Ok (wav_head (Z_to_w32 (36 + zlen (so_data s)))
    [mkChunk "fmt " (fmt_content (wf_format_tag w) (wf_channels w) (wf_samples_per_sec w) (Z_to_w32 (byte_rate w))
                       (wf_block_align w) (wf_bits_per_sample w) (Some (Z_to_w16 0, []))) []]
    (Z_to_w32 (w16_to_Z (wf_cb_size w))) ++ so_data s).
Proof.
  intros Hw [R1 R2] HL Hf w. change (2 ^ 32) with 4294967296 in *. unfold write_sound. rewrite Hw. unfold write_wav_header2.
  replace (w16_to_Z (wf_format_tag (so_wave_form s)) =? 1) with false by lia. cbv zeta. fold w in R1, R2, Hf |- *.
  pose proof (w32_to_Z_range (wf_samples_per_sec w)). pose proof (w16_to_Z_range (wf_bits_per_sample w)).
  pose proof (w16_to_Z_range (wf_channels w)). pose proof (zlen_nonneg (so_data s)).
  assert (HA : forall z, z < 4294967296 -> u32_arith checked z = Ok (z mod 4294967296)).
  { intros z Hz. unfold u32_arith. replace (4294967296 <=? z) with false by lia. rewrite andb_false_r. reflexivity. }
  rewrite HA by exact R1. cbn [rbind]. rewrite (Z.mod_small (_ * _)) by nia. rewrite HA by exact R2. cbn [rbind].
  rewrite (Z.mod_small (zlen (so_data s))) by lia. rewrite HA by lia. cbn [rbind]. f_equal.
  rewrite !Z.mod_small by nia. fold (byte_rate w). f_equal.
  unfold write_wav_header, wav_head. cbn [flat_map]. unfold chunk_layout. cbn [ck_id ck_content ck_pad].
  cbn [wh_size wh_fmt_size wh_format_tag wh_channels wh_samples_per_sec wh_avg_bytes_per_sec wh_block_align wh_bits_per_sample wh_extension_size wh_extension_fields wh_pre_fmt_fields wh_extra_fields wh_data_size].
  unfold fmt_content. rewrite zlen_app, zlen_fmt_fields. change (16 + zlen (w16_bytes (Z_to_w16 0) ++ [])) with 18.
  change (w32_to_Z (Z_to_w32 18) mod 2 =? 1) with false. rewrite <- le32_w32. unfold fmt_fields.
  rewrite !app_nil_r, <- !app_assoc. cbn [app]. rewrite (Z.add_comm (zlen (so_data s)) 36). reflexivity.
Qed.
Lemma other_import size w bps cb samples s0 : is_wav (so_path s0) = true -> w16_to_Z (wf_format_tag w) <> 1 -> 
  read_sound (wav_head size
    [mkChunk "fmt " (fmt_content (wf_format_tag w) (wf_channels w) (wf_samples_per_sec w) (Z_to_w32 bps)
                       (wf_block_align w) (wf_bits_per_sample w) (Some (Z_to_w16 0, []))) []]
    (Z_to_w32 (w16_to_Z cb)) ++ samples) s0 =
  Ok (set_wave_and_data (mkWaveForm (wf_format_tag w) (wf_channels w) (wf_samples_per_sec w) (Z_to_w32 bps) (wf_block_align w) (wf_bits_per_sample w) cb) samples s0).
Proof.
  intros Hw Hf. unfold read_sound. rewrite Hw.
  pose proof (wav_read size [] [] (wf_format_tag w) (wf_channels w) (wf_samples_per_sec w) (Z_to_w32 bps) (wf_block_align w) (wf_bits_per_sample w) (Some (Z_to_w16 0, [])) [] (Z_to_w32 (w16_to_Z cb)) samples) as E.
  cbv zeta in E. cbn [app] in E. rewrite E; [|constructor|constructor|].
  2:{ split; cbn [ck_content ck_pad]; unfold fmt_content; rewrite zlen_app, zlen_fmt_fields; reflexivity. }
  cbn [rbind]. unfold header_of, fmt_of. cbn [wh_format_tag fc_format_tag wh_data_size].
  replace (w16_to_Z (wf_format_tag w) =? 1) with false by lia. pose proof (w16_to_Z_range cb). rewrite w32_to_Z_small by lia.
  rewrite Z_to_w16_to_Z. reflexivity.
Qed.
(** what export and import make of a wave format *)
Definition reimported (w : WaveForm) : WaveForm :=
  mkWaveForm (wf_format_tag w) (wf_channels w) (wf_samples_per_sec w) (Z_to_w32 (byte_rate w)) (wf_block_align w) (wf_bits_per_sample w)
    (if w16_to_Z (wf_format_tag w) =? 1 then Z_to_w16 0 else wf_cb_size w).
Lemma sound_export_import checked s s0 : so_path s0 = so_path s -> rate_fits (so_wave_form s) -> zlen (so_data s) < 2 ^ 32 - 36 ->
  exists file, write_sound checked s = Ok file /\
    read_sound file s0 = Ok (set_wave_and_data (if is_wav (so_path s) then reimported (so_wave_form s) else so_wave_form s0) (so_data s) s0).
Proof.
  intros Hp HR HL. destruct (is_wav (so_path s)) eqn:Hw.
  - destruct (w16_to_Z (wf_format_tag (so_wave_form s)) =? 1) eqn:Hf.
    + eexists. split; [apply wav_export; try assumption; lia|]. rewrite pcm_import by (rewrite ?Hp; try assumption; lia).
      unfold reimported. rewrite Hf. reflexivity.
    + eexists. split; [apply other_export; try assumption; lia|]. rewrite other_import by (rewrite ?Hp; try assumption; lia).
      unfold reimported. rewrite Hf. reflexivity.
  - exists (so_data s). unfold write_sound, read_sound. rewrite Hp, Hw. split; reflexivity.
Qed.

(** ** Extensions *)
Lemma rstring_eqb_eq a b : rstring_eqb a b = true <-> a = b.
Proof.
  revert b. induction a as [|x a IH]; intros [|y b]; cbn; try (split; (reflexivity || discriminate)).
  fold (rstring_eqb a b). rewrite andb_true_iff, N.eqb_eq, IH. split; [intros [-> ->]; reflexivity|intros E; injection E as -> ->; auto].
Qed.
Lemma split_on_nonempty c s : split_on c s <> [].
Proof. destruct s as [|x s]; cbn; [discriminate|]. destruct (x =? c)%N; [discriminate|]. destruct (split_on c s); discriminate. Qed.
Lemma split_on_none (c : N) (s : rstring) : ~ In c s -> split_on c s = [s].
Proof.
  induction s as [|x s IH]; intros H; [reflexivity|]. cbn [split_on]. replace (x =? c)%N with false.
  - rewrite IH; [reflexivity|]. intros Hi; apply H; right; exact Hi.
  - symmetry. apply N.eqb_neq. intros ->. apply H. left. reflexivity.
Qed.
Lemma split_on_app (c : N) (a b : rstring) : split_on c (a ++ c :: b) = split_on c a ++ split_on c b.
Proof.
  induction a as [|x a IH]; cbn [app split_on]; [rewrite N.eqb_refl; reflexivity|].
  destruct (x =? c)%N; [cbn [app]; rewrite IH; reflexivity|]. rewrite IH. pose proof (split_on_nonempty c a).
  destruct (split_on c a) as [|w ws]; [contradiction|reflexivity].
Qed.
Lemma file_name_in dir name : plain_name name -> name <> lit "." -> name <> lit ".." -> path_file_name (in_directory dir name) = Some name.
Proof.
  intros [Hn Hs] H1 H2. unfold path_file_name.
  assert (E : exists l, split_on slash (in_directory dir name) = l ++ [name]).
  { unfold in_directory. destruct dir as [|x dir]; [exists []; apply split_on_none, Hs|].
    exists (split_on slash (x :: dir)). change (lit "/" ++ name) with (slash :: name). rewrite split_on_app. f_equal. apply split_on_none, Hs. }
  destruct E as (l & E). unfold path_components. rewrite E, filter_app. cbn [filter].
  replace (rstring_eqb name []) with false by (symmetry; apply not_true_iff_false; rewrite rstring_eqb_eq; exact Hn).
  replace (rstring_eqb name [dot]) with false by (symmetry; apply not_true_iff_false; rewrite rstring_eqb_eq; exact H1).
  cbn [negb andb]. rewrite rev_app_distr. cbn [rev app].
  replace (rstring_eqb name [dot; dot]) with false by (symmetry; apply not_true_iff_false; rewrite rstring_eqb_eq; exact H2). reflexivity.
Qed.
Lemma after_last_dot_none (s : rstring) : ~ In dot s -> after_last_dot s = None.
Proof.
  induction s as [|c s IH]; intros H; [reflexivity|]. cbn [after_last_dot]. rewrite IH by (intros Hi; apply H; right; exact Hi).
  replace (c =? dot)%N with false; [reflexivity|]. symmetry. apply N.eqb_neq. intros ->. apply H. left. reflexivity.
Qed.
Lemma after_last_dot_app (a e : rstring) : ~ In dot e -> after_last_dot (a ++ dot :: e) = Some e.
Proof.
  intros H. induction a as [|c a IH]; cbn [app after_last_dot].
  - rewrite after_last_dot_none by exact H. rewrite N.eqb_refl. reflexivity.
  - rewrite IH. reflexivity.
Qed.
(** a path with an extension *)
Lemma ext_of_path dir stem e : plain_name stem -> e <> [] -> ~ In dot e -> ~ In 47%N e ->
  str_path_ext (in_directory dir (stem ++ lit "." ++ e)) = Some e.
Proof.
  intros [Hn Hs] He Hd Hse. unfold str_path_ext, path_extension. change (lit "." ++ e) with (dot :: e).
  assert (Hlen : (zlen (stem ++ dot :: e) =? zlen e + 1) = false).
  { apply Z.eqb_neq. unfold zlen. rewrite app_length. cbn [List.length]. destruct stem; [contradiction|]. cbn [List.length]. unfold rstring, uchar in *. lia. }
  rewrite file_name_in.
  - rewrite after_last_dot_app by exact Hd. match goal with |- context [if ?c then _ else _] => replace c with false by (symmetry; exact Hlen) end.
    destruct e; [contradiction|reflexivity].
  - split; [destruct stem; discriminate|]. intros Hi. apply in_app_iff in Hi. destruct Hi as [Hi|[Hi|Hi]]; [auto|discriminate Hi|auto].
  - intros E. destruct stem as [|x stem]; [contradiction|]. injection E as _ E. destruct stem; discriminate E.
  - intros E. destruct stem as [|x stem]; [contradiction|]. injection E as _ E. destruct stem as [|y stem]; [injection E as E; exact (He E)|].
    injection E as _ E. destruct stem; discriminate E.
Qed.
Lemma no_ext_of_path dir stem : plain_name stem -> ~ In dot stem -> str_path_ext (in_directory dir stem) = None.
Proof.
  intros Hp Hd. unfold str_path_ext, path_extension. rewrite file_name_in; [|exact Hp| |].
  - rewrite after_last_dot_none by exact Hd. reflexivity.
  - intros ->. apply Hd. left. reflexivity.
  - intros ->. apply Hd. left. reflexivity.
Qed.
Lemma is_wav_iff dir stem e : plain_name stem -> e <> [] -> ~ In dot e -> ~ In 47%N e ->
  (is_wav (in_directory dir (stem ++ lit "." ++ e)) = true <-> lower_case e = lit "wav").
Proof.
  intros. unfold is_wav. rewrite ext_of_path by assumption. unfold eq_ignore_ascii_case. rewrite rstring_eqb_eq. reflexivity.
Qed.
Lemma is_wav_no_ext dir stem : plain_name stem -> ~ In dot stem -> is_wav (in_directory dir stem) = true.
Proof. intros. unfold is_wav. rewrite no_ext_of_path by assumption. reflexivity. Qed.

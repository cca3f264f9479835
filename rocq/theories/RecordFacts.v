(** Proofs of the statements about record streams and strings in them. *)
From Verif Require Import Base Text Biff Quantize Common ItemBase.
From Verif Require Import BaseFacts TextFacts BiffFacts CommonFacts TermFacts ItemBaseFacts SpecBiff.

(** ** The specification and the records of the proofs *)
Lemma le32_w32 n : w32_bytes (Z_to_w32 n) = le32 n.
Proof.
  unfold w32_bytes, Z_to_w32, le32. unfold Z_to_byte. rewrite !Zmod_mod. reflexivity.
Qed.
Lemma tag4_tag_bytes t : (String.length t <= 4)%nat -> tag_bytes t = tag4 t.
Proof.
  intros H. unfold tag_bytes, tag4. rewrite firstn_app, list_byte_of_string_length.
  rewrite firstn_all2 by (rewrite list_byte_of_string_length; lia). f_equal.
  remember (4 - String.length t)%nat as k eqn:Ek. assert (Hk : (k <= 4)%nat) by lia. clear Ek.
  do 5 (destruct k as [|k]; [reflexivity|]). lia.
Qed.
Lemma tag_ok_valid t : tag_ok t = true <-> valid_tag t.
Proof.
  unfold tag_ok, valid_tag. rewrite !andb_true_iff, !Nat.leb_le.
  assert (E : forallb (fun c => negb (is_nul c)) (list_byte_of_string t) = true <-> ~ In x00 (list_byte_of_string t)).
  { rewrite forallb_forall. split.
    - intros H Hin. specialize (H _ Hin). discriminate.
    - intros H x Hin. destruct x; try reflexivity. contradiction. }
  rewrite E. intuition.
Qed.
Lemma record_bytes_enc t p : valid_tag t -> enc_rec (R t p) = record_bytes (t, p).
Proof.
  intros [H _]. unfold enc_rec, R, hdr, record_bytes. cbn [rec_tag rec_n rec_p fst snd].
  rewrite le32_w32, tag4_tag_bytes, <- app_assoc by lia. reflexivity.
Qed.
Definition rec_of (r : string * bytes) : rec := R (fst r) (snd r).
Lemma flat_records rs : Forall valid_record rs -> enc (map rec_of rs) = flat_map record_bytes rs.
Proof.
  induction 1 as [|[t p] rs H _ IH]; [reflexivity|]. cbn [map flat_map]. rewrite enc_cons, IH. f_equal.
  apply record_bytes_enc, H.
Qed.
Lemma stream_enc rs : Forall valid_record rs -> enc (map rec_of rs ++ [endb]) = stream_bytes rs.
Proof.
  intros H. unfold stream_bytes. rewrite enc_app, flat_records by exact H. reflexivity.
Qed.
Lemma valid_rec_ok t p : valid_record (t, p) -> tag_ok t = true /\ size_ok (zlen p) = true /\ t <> "ENDB"%string.
Proof.
  intros (H1 & H2 & H3). cbn [fst snd] in *. apply tag_ok_valid in H1. split; [exact H1|split; [|exact H2]].
  unfold size_ok, two32. pose proof (zlen_nonneg p). change (2 ^ 32) with 4294967296 in H3. lia.
Qed.

(** ** C01 *)
Lemma wapp_records rs : Forall valid_record rs ->
  wapp (wfor rs (fun r => write_tagged_data (fst r) (snd r))) (enc (map rec_of rs)).
Proof.
  induction 1 as [|[t p] rs H _ IH]; cbn [wfor map]; [apply wapp_skip|].
  apply wapp_cons; [|exact IH]. destruct (valid_rec_ok t p H) as (Ht & Hs & _).
  apply wapp_tagged; [exact Ht|exact Hs|apply wbody_data].
Qed.
Lemma write_records_bytes rs : Forall valid_record rs -> run_writer (write_records rs) = Ok (stream_bytes rs).
Proof.
  intros H. rewrite <- stream_enc by exact H. apply run_wapp.
  - apply wapp_app; [apply wapp_records, H|apply wapp_close].
  - apply Closes_seq, Closes_close.
Qed.
Lemma collect_handles t p acc : Handles collect t (zlen p) p acc (acc ++ [(t, p)]).
Proof. intros pre rest w c Hr. apply (ArmH_data (fun acc p => acc ++ [(t, p)])). exact Hr. Qed.
Lemma Steps_collect rs : Forall valid_record rs -> forall acc, Steps collect acc (map rec_of rs) (acc ++ rs).
Proof.
  induction 1 as [|[t p] rs H _ IH]; intros acc; cbn [map].
  - rewrite app_nil_r. constructor.
  - destruct (valid_rec_ok t p H) as (Ht & Hs & He).
    change (rec_of (t, p)) with (R t p). eapply Steps_one_cons; [|apply collect_handles|].
    + apply rec_ok_of; [|exact Hs]. rewrite Ht. cbn [andb]. apply negb_true_iff, String.eqb_neq, He.
    + replace (acc ++ (t, p) :: rs) with ((acc ++ [(t, p)]) ++ rs) by (rewrite <- app_assoc; reflexivity). apply IH.
Qed.
Lemma collect_stream rs c : Forall valid_record rs ->
  exists r, run_loop collect [] (rd_new c (stream_bytes rs)) = Ok (rs, r) /\ r_pos r = zlen (stream_bytes rs) /\ r_tag r = "ENDB"%string.
Proof.
  intros H. rewrite rd_new_at.
  pose proof (run_loop_steps collect [] (map rec_of rs) rs [] [] "" true c (Steps_collect rs H []) (fun _ => eq_refl)) as E.
  rewrite app_nil_r, (stream_enc rs H) in E. eexists. split; [exact E|]. split; reflexivity.
Qed.

(** ** C02 *)
Lemma biff_loop_more {S} (h : string -> S -> rd_M S) n s r k :
  biff_loop n h s r <> OutOfFuel -> biff_loop (n + k) h s r = biff_loop n h s r.
Proof.
  revert s r. induction n as [|n IH]; intros s r H; [exfalso; apply H; reflexivity|].
  cbn [Nat.add biff_loop] in *. unfold rbindM in *.
  destruct (next r) as [[u r1]|f]; [|reflexivity]. destruct (is_eof r1); [reflexivity|].
  destruct (h (r_tag r1) s r1) as [[s' r2]|f]; [|reflexivity]. apply IH, H.
Qed.
Lemma run_loop_enough {S} (h : string -> S -> rd_M S) s c b n : (forall t s, Term (h t s)) ->
  (loop_fuel (rd_new c b) <= n)%nat ->
  biff_loop n h s (rd_new c b) <> OutOfFuel /\ biff_loop n h s (rd_new c b) = run_loop h s (rd_new c b).
Proof.
  intros Hh Hn. pose proof (Term_run_loop h s Hh 0 (rd_new c b) (Z.le_refl 0)) as HT.
  assert (HS : Safe 0 (rd_new c b)) by (split; cbn; lia). specialize (HT HS).
  assert (H : run_loop h s (rd_new c b) <> OutOfFuel).
  { intros E. rewrite E in HT. apply HT. reflexivity. }
  assert (E : biff_loop n h s (rd_new c b) = run_loop h s (rd_new c b)).
  { unfold run_loop. replace n with (loop_fuel (rd_new c b) + (n - loop_fuel (rd_new c b)))%nat by lia.
    apply biff_loop_more, H. }
  rewrite E. auto.
Qed.

(** ** Values of one tag *)
Lemma Steps_values {A} t (g : rd_M A) (enc1 : A -> bytes) (dec1 : A -> A) xs :
  tag_ok t = true -> t <> "ENDB"%string ->
  (forall x, In x xs -> Gets g (enc1 x) (dec1 x) /\ size_ok (zlen (enc1 x)) = true) ->
  forall acc, Steps (values_of t g) acc (map (fun x => R t (enc1 x)) xs) (acc ++ map dec1 xs).
Proof.
  intros Ht He. induction xs as [|x xs IH]; intros H acc; cbn [map].
  - rewrite app_nil_r. constructor.
  - destruct (H x (or_introl eq_refl)) as [HG HS].
    eapply Steps_one_cons with (s' := acc ++ [dec1 x]).
    + apply rec_ok_of; [|exact HS]. rewrite Ht. cbn [andb]. apply negb_true_iff, String.eqb_neq, He.
    + intros pre rest w c Hr. unfold values_of. rewrite String.eqb_refl.
      apply (ArmH_get g (fun acc x => acc ++ [x]) (enc1 x) (dec1 x) acc HG). exact Hr.
    + replace (acc ++ dec1 x :: map dec1 xs) with ((acc ++ [dec1 x]) ++ map dec1 xs) by (rewrite <- app_assoc; reflexivity).
      apply IH. intros; apply H; right; assumption.
Qed.
Lemma values_roundtrip {A} t (g : rd_M A) (w : A -> wr_M) (enc1 : A -> bytes) (dec1 : A -> A) xs :
  valid_tag t -> t <> "ENDB"%string ->
  (forall x, In x xs -> Gets g (enc1 x) (dec1 x) /\ size_ok (zlen (enc1 x)) = true /\ wapp (w x) (enc_rec (R t (enc1 x)))) ->
  exists b, run_writer (wfor xs w >>> close true) = Ok b /\ forall c, read_values t g c b = Ok (map dec1 xs).
Proof.
  intros Ht He H. apply tag_ok_valid in Ht. exists (enc (map (fun x => R t (enc1 x)) xs ++ [endb])). split.
  - apply run_wapp; [|apply Closes_seq, Closes_close]. apply wapp_app; [|apply wapp_close].
    assert (G : forall x, In x xs -> wapp (w x) (enc_rec (R t (enc1 x)))) by (intros; apply H; assumption).
    clear H. induction xs as [|x xs IH]; cbn [wfor map]; [apply wapp_skip|].
    apply wapp_cons; [apply G; left; reflexivity|]. apply IH. intros; apply G; right; assumption.
  - intros c. unfold read_values. rewrite rd_new_at.
    rewrite <- (app_nil_r (enc _)).
    rewrite (run_loop_steps _ [] _ (map dec1 xs)); [reflexivity| |reflexivity].
    apply (Steps_values t g enc1 dec1 xs Ht He) with (acc := []).
    intros x Hx. destruct (H x Hx) as (H1 & H2 & _). auto.
Qed.
Lemma biff_loop_inv {S} (h : string -> S -> rd_M S) (I : S -> Prop) :
  (forall t s r s' r', I s -> h t s r = Ok (s', r') -> I s') ->
  forall n s r s' r', I s -> biff_loop n h s r = Ok (s', r') -> I s'.
Proof.
  intros Hh. induction n as [|n IH]; intros s r s' r' HI E; [discriminate|].
  cbn [biff_loop] in E. unfold rbindM in E. destruct (next r) as [[u r1]|f]; [|discriminate].
  destruct (is_eof r1). { injection E as <- <-. exact HI. }
  destruct (h (r_tag r1) s r1) as [[s1 r2]|f] eqn:E1; [|discriminate]. eapply IH; [|exact E]. eapply Hh; eassumption.
Qed.
Lemma read_values_all {A} t (g : rd_M A) (P : A -> Prop) c b l :
  (forall r x r', g r = Ok (x, r') -> P x) -> read_values t g c b = Ok l -> Forall P l.
Proof.
  intros Hg. unfold read_values, run_loop. destruct (biff_loop _ _ _ _) as [[l' r']|] eqn:E; [|discriminate].
  intros [= <-]. revert E. apply biff_loop_inv; [|constructor].
  intros t' s r s' r1 HI Eh. unfold values_of in Eh. destruct (t' =? t)%string.
  - apply bindM_inv in Eh. destruct Eh as (x & r2 & E1 & E2). injection E2 as <- <-.
    apply Forall_app. split; [exact HI|]. constructor; [eapply Hg, E1|constructor].
  - cbv in Eh. injection Eh as <- _. exact HI.
Qed.

(** ** C04 *)
Lemma latin1_ok_chars s : latin1_ok s = true <-> Forall latin1_char s.
Proof.
  unfold latin1_ok, latin1_char. rewrite forallb_forall, Forall_forall.
  split; intros H x Hx; specialize (H x Hx); lia.
Qed.
Lemma until_nul_no_nul d : forallb (fun c => negb (is_nul c)) (until_nul d) = true.
Proof.
  induction d as [|c d IH]; [reflexivity|]. cbn [until_nul]. destruct (is_nul c) eqn:E; [reflexivity|].
  cbn [forallb]. rewrite E. exact IH.
Qed.
Lemma decode_until_nul_chars d : Forall latin1_char (decode_latin1 (until_nul d)).
Proof.
  pose proof (until_nul_no_nul d) as H. induction (until_nul d) as [|c l IH]; [constructor|].
  cbn [forallb] in H. apply andb_true_iff in H. destruct H as [Hc Hl]. cbn [decode_latin1 map].
  constructor; [|apply IH, Hl]. unfold latin1_char. destruct c; cbn in *; try discriminate; lia.
Qed.
Lemma scan_until d : forall p n b, scan_str d p n = Ok b -> exists x, b = until_nul x.
Proof.
  intros p n b. unfold scan_str. destruct (_ || _ || _); [discriminate|]. destruct (_ || _); [|discriminate].
  intros [= <-]. eexists; reflexivity.
Qed.
Lemma get_string_chars r s r' : get_string r = Ok (s, r') -> Forall latin1_char s.
Proof.
  unfold get_string. intros E. apply bindM_inv in E. destruct E as (n & r1 & E1 & E2). unfold get_str in E2.
  apply bindM_inv in E2. destruct E2 as (b & r2 & E2 & E3). apply bindM_inv in E3. destruct E3 as (u & r3 & E3 & E4).
  injection E4 as <- _. unfold scan in E2. destruct (scan_str _ _ _) as [b'|] eqn:Es; [|discriminate].
  injection E2 as <- _. destruct (scan_until _ _ _ _ Es) as (x & ->). apply decode_until_nul_chars.
Qed.
Lemma scan_any pre x rest n t w c :
  scan (zlen x) (at_ pre (x ++ rest) n t w c) = Ok (until_nul x, at_ (pre ++ x) rest n t w c).
Proof.
  unfold scan, scan_str, at_. cbn [r_data r_pos].
  pose proof (zlen_nonneg pre). pose proof (zlen_nonneg x). pose proof (zlen_nonneg rest). rewrite !zlen_app.
  replace ((zlen pre <? 0) || (zlen x <? 0) || (zlen pre + (zlen x + zlen rest) <? zlen pre)) with false by lia.
  rewrite skipn_zlen, firstn_zlen.
  assert (HU : zlen (until_nul x) < zlen x \/ until_nul x = x).
  { clear. induction x as [|a x IH]; [right; reflexivity|]. cbn [until_nul]. destruct (is_nul a).
    - left. change (zlen (@nil byte)) with 0. rewrite zlen_cons. pose proof (zlen_nonneg x). lia.
    - rewrite !zlen_cons. destruct IH as [IH|IH]; [left; lia|right; congruence]. }
  replace ((zlen (until_nul x) =? zlen x) || (zlen (until_nul x) <? zlen (x ++ rest))) with true.
  2:{ rewrite zlen_app. destruct HU as [HU|HU]; [|rewrite HU]; lia. }
  unfold set_pos. cbn. rewrite ?zlen_app, <- ?app_assoc. reflexivity.
Qed.
Lemma Gets_lp_string d : fits (zlen d) = true -> Gets get_string (lp_bytes d) (decode_latin1 (until_nul d)).
Proof.
  intros Hf pre rest n t w c Hn. unfold fits in Hf. pose proof (zlen_nonneg d). rewrite lp_len in Hn.
  unfold get_string, lp_bytes. rewrite <- app_assoc.
  erewrite bindM_ok by (apply get_u32_at; lia). rewrite w32_to_Z_small by lia.
  unfold get_str. erewrite bindM_ok by apply scan_any.
  unfold rbindM. rewrite sub_remaining_at by lia. unfold rret.
  rewrite <- app_assoc, zlen_app, zlen_w32_bytes. replace (n - (4 + zlen d)) with (n - 4 - zlen d) by lia. reflexivity.
Qed.
Lemma encode_latin1_len s d : encode_latin1_lossy s = Ok d -> zlen d = zlen s.
Proof.
  revert d. induction s as [|c s IH]; intros d; cbn [encode_latin1_lossy]; [intros [= <-]; reflexivity|].
  destruct (if (c <? 256)%N then Byte.of_N c else None) as [b|]; [|discriminate].
  destruct (encode_latin1_lossy s) as [d'|] eqn:E; cbn; [|discriminate]. intros [= <-].
  rewrite !zlen_cons. rewrite (IH d' eq_refl). reflexivity.
Qed.
Lemma encode_latin1_all s : Forall (fun c => (c < 256)%N) s -> exists d, encode_latin1_lossy s = Ok d.
Proof.
  induction 1 as [|c s Hc _ (d & E)]; [exists []; reflexivity|]. cbn [encode_latin1_lossy].
  replace (c <? 256)%N with true by lia. destruct (Byte.of_N c) as [b|] eqn:B.
  - rewrite E. cbn. eexists; reflexivity.
  - exfalso. apply Byte.of_N_None_iff in B. lia.
Qed.
Lemma decode_until_nul s d : encode_latin1_lossy s = Ok d -> decode_latin1 (until_nul d) = before_nul s.
Proof.
  intros H. apply encode_latin1_inv in H. subst s. induction d as [|b d IH]; [reflexivity|].
  cbn [decode_latin1 map until_nul before_nul]. destruct b; cbn; try (f_equal; exact IH).
Qed.
Lemma string_writes t ss : valid_tag t -> t <> "ENDB"%string ->
  Forall (fun s : rstring => Forall (fun c => (c < 256)%N) s /\ zlen s < 2 ^ 32 - 8) ss ->
  exists b, run_writer (wfor ss (write_tagged_string t) >>> close true) = Ok b /\
            forall c, read_values t get_string c b = Ok (map before_nul ss).
Proof.
  intros Ht He HF. 
  apply (values_roundtrip t get_string (write_tagged_string t)
           (fun s => lp_bytes (match encode_latin1_lossy s with Ok d => d | _ => [] end)) before_nul ss Ht He).
  intros s Hs. rewrite Forall_forall in HF. destruct (HF s Hs) as [HC HL]. change (2 ^ 32 - 8) with 4294967288 in HL.
  destruct (encode_latin1_all s HC) as (d & E). rewrite E. pose proof (encode_latin1_len s d E) as HD.
  pose proof (zlen_nonneg d). assert (Hf : fits (zlen d) = true) by (unfold fits; lia).
  split; [|split].
  - rewrite <- (decode_until_nul s d E). apply Gets_lp_string, Hf.
  - rewrite lp_len. unfold size_ok, two32. lia.
  - apply tag_ok_valid in Ht. apply wapp_tagged; [exact Ht|rewrite lp_len; unfold size_ok, two32; lia|].
    intros w. unfold write_string, wlift. rewrite E. apply wbody_lp, Hf.
Qed.
Lemma before_nul_id s : Forall latin1_char s -> before_nul s = s.
Proof.
  induction 1 as [|c s H _ IH]; [reflexivity|]. cbn [before_nul]. unfold latin1_char in H.
  replace (c =? 0)%N with false by lia. rewrite IH. reflexivity.
Qed.
Lemma string_written_chars t s b : valid_tag t ->
  run_writer (wfor [s] (write_tagged_string t) >>> close true) = Ok b -> exists d, encode_latin1_lossy s = Ok d.
Proof.
  intros Ht. unfold run_writer, wfor, write_tagged_string, write_tagged_with, wseq, write_string, wlift.
  destruct (new_tag t wr_new); [|discriminate]. destruct (encode_latin1_lossy s) as [d|]; [|discriminate]. intros _. eauto.
Qed.
Lemma string_exact t (s : rstring) : valid_tag t -> t <> "ENDB"%string -> zlen s < 2 ^ 32 - 8 ->
  (exists b, run_writer (wfor [s] (write_tagged_string t) >>> close true) = Ok b /\
             forall c, read_values t get_string c b = Ok [s]) <-> Forall latin1_char s.
Proof.
  intros Ht He HL. split.
  - intros (b & _ & HR). pose proof (read_values_all t get_string (Forall latin1_char) true b [s] get_string_chars (HR true)) as H.
    inversion H; assumption.
  - intros HC. destruct (string_writes t [s] Ht He) as (b & E1 & E2).
    + constructor; [|constructor]. split; [|exact HL]. eapply Forall_impl; [|exact HC]. unfold latin1_char. intros; lia.
    + exists b. split; [exact E1|]. intros c. rewrite E2. cbn [map]. rewrite before_nul_id by exact HC. reflexivity.
Qed.

(** ** C05 *)
Lemma is_rstring_scalars s : is_rstring s = true <-> Forall scalar_value s.
Proof.
  unfold is_rstring, scalar_value. rewrite forallb_forall, Forall_forall. unfold is_scalar.
  split; intros H x Hx; specialize (H x Hx); lia.
Qed.
Lemma from_utf16_err us f : from_utf16 us = Fail f -> f = ErrF.
Proof.
  assert (G : forall n us, (List.length us <= n)%nat -> from_utf16 us = Fail f -> f = ErrF).
  { clear us. induction n as [|n IH]; intros [|u us'] H; cbn [from_utf16 List.length] in *; try discriminate; try lia.
    destruct (in_range _ _ u).
    - destruct (u <? 56320); [|congruence]. destruct us' as [|u2 us'']; [congruence|].
      destruct (in_range _ _ u2); [|congruence]. cbn [List.length] in H.
      destruct (from_utf16 us'') eqn:E; cbn; [discriminate|]. intros [= <-]. eapply IH; [|exact E]. lia.
    - destruct (from_utf16 us') eqn:E; cbn; [discriminate|]. intros [= <-]. eapply IH; [|exact E]. lia. }
  apply (G _ us (le_n _)).
Qed.
Lemma decode_utf16_err d : decode_utf16le d = Err <-> ~ exists s, Forall scalar_value s /\ encode_utf16le s = d.
Proof.
  split.
  - intros E (s & Hs & <-). rewrite utf16_roundtrip in E by (apply is_rstring_scalars, Hs). discriminate.
  - intros H. destruct (decode_utf16le d) as [s|f] eqn:E.
    + exfalso. apply H. exists s. apply utf16_decode_inv in E. destruct E as [E1 E2]. split; [apply is_rstring_scalars, E2|exact E1].
    + unfold decode_utf16le in E. destruct (negb _); [symmetry; exact E|]. rewrite (from_utf16_err _ _ E). reflexivity.
Qed.
Lemma encode_utf16_even s : Nat.even (List.length (encode_utf16le s)) = true.
Proof. apply even_flat_w16. Qed.
Lemma wide_writes t ss : valid_tag t -> t <> "ENDB"%string ->
  Forall (fun s : rstring => Forall scalar_value s /\ zlen (encode_utf16le s) < 2 ^ 32 - 8) ss ->
  exists b, run_writer (wfor ss (write_tagged_wide_string t) >>> close true) = Ok b /\
            forall c, read_values t get_wide_string c b = Ok ss.
Proof.
  intros Ht He HF.
  enough (G : exists b, run_writer (wfor ss (write_tagged_wide_string t) >>> close true) = Ok b /\
                        forall c, read_values t get_wide_string c b = Ok (map (fun s => s) ss)) by (rewrite map_id in G; exact G).
  apply (values_roundtrip t get_wide_string (write_tagged_wide_string t) wstring_bytes (fun s => s) ss Ht He).
  intros s Hs. rewrite Forall_forall in HF. destruct (HF s Hs) as [HC HL]. change (2 ^ 32 - 8) with 4294967288 in HL.
  assert (HW : wstr_ok s = true).
  { unfold wstr_ok, fits. apply is_rstring_scalars in HC. rewrite HC. lia. }
  split; [apply Gets_wstring, HW|]. unfold wstring_bytes. rewrite lp_len.
  pose proof (zlen_nonneg (encode_utf16le s)). split; [unfold size_ok, two32; lia|].
  apply tag_ok_valid in Ht. apply wapp_tagged; [exact Ht|rewrite lp_len; unfold size_ok, two32; lia|].
  apply wbody_wstring, HW.
Qed.

(** ** C06 *)
Lemma swe_utf8_iff d : swe_encoding (swe_of_bytes d) = Utf8 <-> exists s, Forall scalar_value s /\ utf8_encode s = d.
Proof.
  unfold swe_of_bytes. destruct (utf8_decode d) as [s|] eqn:E; cbn [swe_encoding].
  - apply utf8_decode_inv in E. destruct E as [E1 E2]. split; [|reflexivity]. intros _. exists s.
    split; [apply is_rstring_scalars, E2|exact E1].
  - split; [discriminate|]. intros (s & Hs & <-). rewrite utf8_decode_encode in E by (apply is_rstring_scalars, Hs). discriminate.
Qed.
Lemma swe_string_of d s : Forall scalar_value s -> utf8_encode s = d -> swe_of_bytes d = mkSWE Utf8 s.
Proof.
  intros Hs <-. unfold swe_of_bytes. rewrite utf8_decode_encode by (apply is_rstring_scalars, Hs). reflexivity.
Qed.

(** Proofs of the statements about images. *)
From Verif Require Import Base Text Biff Quantize Common Enums ItemBase Structs Image.
From Verif Require Import BaseFacts TextFacts BiffFacts CommonFacts TermFacts QuantizeFacts EnumsFacts ItemBaseFacts.
From Verif Require Import StructBaseFacts StructsFacts ImageFacts GameItemBaseFacts.
From Verif Require Import SpecBiff SpecItems RecordFacts SpecStructs StructsProps SpecImage.

Lemma opt_record_rec {A} t (f : A -> bytes) (o : option A) : map rec_of (opt_record t f o) = orec o (fun x => R t (f x)).
Proof. destruct o; reflexivity. Qed.
Lemma orec_ext {A} (o : option A) f g : (forall x, f x = g x) -> orec o f = orec o g.
Proof. intros H. destruct o; cbn; [rewrite H|]; reflexivity. Qed.
Lemma image_head_recs v : Image_recs1 v = map rec_of (image_head v).
Proof.
  unfold Image_recs1, image_head. rewrite !map_app, !opt_record_rec. cbn [map app]. rewrite !string_payload_eq, app_nil_r.
  rewrite (orec_ext (im_internal_name v) (fun x => R "INME" (string_bytes x)) (fun x => R "INME" (string_payload x)))
    by (intros; rewrite string_payload_eq; reflexivity).
  reflexivity.
Qed.
Lemma image_tail_recs v : Image_recs2 v = map rec_of (image_tail v).
Proof.
  unfold Image_recs2, image_tail. rewrite !map_app, !opt_record_rec. cbn [map app]. rewrite app_nil_r.
  rewrite (orec_ext (im_is_opaque v) (fun x => R "OPAQ" (bool_bytes x)) (fun x => R "OPAQ" (bool_payload x)))
    by (intros; rewrite bool_payload_eq; reflexivity).
  rewrite (orec_ext (im_is_signed v) (fun x => R "SIGN" (bool_bytes x)) (fun x => R "SIGN" (bool_payload x)))
    by (intros; rewrite bool_payload_eq; reflexivity).
  reflexivity.
Qed.
Lemma jpeg_recs j : Jpeg_recs j = map rec_of (jpeg_records j).
Proof.
  unfold Jpeg_recs, jpeg_records. rewrite !map_app, !opt_record_rec. cbn [map app]. rewrite !string_payload_eq.
  rewrite (orec_ext (ij_internal_name j) (fun x => R "INME" (string_bytes x)) (fun x => R "INME" (string_payload x)))
    by (intros; rewrite string_payload_eq; reflexivity).
  rewrite le32_w32. reflexivity.
Qed.

(** ** Values *)
Lemma no_marker_iff d : no_marker d = true <-> ~ contains_marker d.
Proof.
  unfold no_marker. pose proof (find_tag_none ALTV_bytes d ltac:(discriminate)) as H.
  unfold contains_marker. change (list_byte_of_string "ALTV") with ALTV_bytes. fold (occurs ALTV_bytes d).
  destruct (find_tag ALTV_bytes d); split; intros X.
  - discriminate.
  - apply H in X. discriminate.
  - apply H. reflexivity.
  - reflexivity.
Qed.
Lemma jpeg_fits_iff j : Jpeg_ok j = true <-> jpeg_fits j.
Proof.
  unfold Jpeg_ok, jpeg_fits, data_ok, data_fits. rewrite !andb_true_iff, !string_fits_iff, size_fits_iff, (opt_ok_iff _ _ _ string_fits_iff). tauto.
Qed.
Lemma md5_iff d : md5_ok d = true <-> zlen d = 16.
Proof. unfold md5_ok. apply Z.eqb_eq. Qed.
Lemma image_fits_iff v : Image_fields_ok v = true <-> image_fits v.
Proof.
  unfold Image_fields_ok, image_fits.
  rewrite !andb_true_iff, !string_fits_iff, (opt_ok_iff _ _ _ string_fits_iff), (opt_ok_iff _ _ _ no_marker_iff), (opt_ok_iff _ _ _ jpeg_fits_iff), (opt_ok_iff _ _ _ md5_iff).
  tauto.
Qed.
Lemma one_kind_iff v : one_picture v = true <-> one_kind v.
Proof.
  unfold one_picture, one_kind. destruct (im_bits v), (im_jpeg v); intuition congruence.
Qed.

(** ** Layout *)
Lemma flat_records_tags rs : Forall (fun r => valid_tag (fst r)) rs -> enc (map rec_of rs) = flat_map record_bytes rs.
Proof.
  intros H. induction H as [|[t p] rs H _ IH]; [reflexivity|]. cbn [map flat_map]. rewrite enc_cons, IH. f_equal. apply record_bytes_enc, H.
Qed.
Definition picture_recs (bits : option bytes) (jpeg : option (list (string * bytes))) : list rec :=
  orec bits (fun b => R0 "BITS" b) ++ orec jpeg (fun rs => R0 "JPEG" (stream_bytes rs)).
Lemma picture_enc bits jpeg : enc (picture_recs bits jpeg) = picture_bytes bits jpeg.
Proof.
  unfold picture_recs, picture_bytes. rewrite enc_app. f_equal.
  - destruct bits; [|reflexivity]. cbn [orec]. unfold enc. cbn [flat_map]. rewrite app_nil_r. reflexivity.
  - destruct jpeg; [|reflexivity]. cbn [orec]. unfold enc. cbn [flat_map]. rewrite app_nil_r. reflexivity.
Qed.
Lemma image_layout_enc hs bits jpeg ts : Forall (fun r => valid_tag (fst r)) hs -> Forall (fun r => valid_tag (fst r)) ts ->
  enc ((map rec_of hs ++ picture_recs bits jpeg ++ map rec_of ts) ++ [endb]) = image_bytes hs (picture_bytes bits jpeg) ts.
Proof.
  intros H1 H2. unfold image_bytes. rewrite <- !app_assoc, !enc_app, flat_records_tags, picture_enc by exact H1.
  rewrite <- (stream_enc_tags ts H2), enc_app. reflexivity.
Qed.

Lemma image_read_inserted v hs js ts : image_fits v -> one_kind v ->
  Inserted (map fst ImageData_arms) (image_head v) hs -> jpeg_inserted (im_jpeg v) js ->
  Inserted (map fst ImageData_arms) (image_tail v) ts ->
  (im_bits v = None \/ hd_error ts = hd_error (image_tail v)) ->
  forall checked, ImageData_read checked (image_bytes hs (picture_bytes (im_bits v) js) ts) = Ok v.
Proof.
  intros HF HK HH HJ HT HB. apply image_fits_iff in HF.
  pose proof (Image_steps1 v HF) as S1. rewrite image_head_recs in S1. apply (Steps_inserted _ _ _ _) with (rs' := hs) in S1; [|exact HH].
  pose proof (Image_steps2 v HF) as S2. rewrite image_tail_recs in S2. apply (Steps_inserted _ _ _ _) with (rs' := ts) in S2; [|exact HT].
  rewrite <- image_layout_enc; [|apply (Steps_recs_valid _ _ _ _ S1)|apply (Steps_recs_valid _ _ _ _ S2)].
  apply run_reader_reads. apply loop_creads.
  eapply Steps_CSteps; [exact S1|].
  apply Steps_C in S2.
  assert (Hb : opt_ok no_marker (im_bits v) = true) by (unfold Image_fields_ok in HF; split_ok HF; assumption).
  assert (Hj : opt_ok Jpeg_ok (im_jpeg v) = true) by (unfold Image_fields_ok in HF; split_ok HF; assumption).
  clear S1 HF HH. destruct v as [n i p w h l a o s j b m]. unfold one_kind in HK. unfold picture_recs.
  cbn [im_bits im_jpeg] in *.
  destruct b as [b|].
  - destruct HK as [HK|HK]; [discriminate|]. subst j. destruct js as [js|]; [destruct HJ|]. cbn [orec app].
    destruct HB as [HB|HB]; [discriminate|].
    destruct ts as [|t0 ts]; [discriminate|]. cbn [image_tail app hd_error im_alpha_test_value] in HB. injection HB as ->.
    unfold R0. econstructor; [reflexivity| |exact S2].
    intros pre tail w0 c. unfold dispatch.
    change (lookup "BITS"%string ImageData_arms) with (Some (fun s => x <- data_until ALTV_bytes ;; rret (set_im_bits (Some x) s))).
    cbn [map app]. rewrite enc_cons. unfold enc_rec at 1 2. cbn [rec_of fst snd R rec_tag rec_n rec_p].
    change (zlen (w32_bytes a)) with 4. rewrite <- !app_assoc.
    cbv beta iota. erewrite bindM_ok by (apply data_until_at; [exact Hb|reflexivity]). reflexivity.
  - destruct j as [j|], js as [js|]; try (destruct HJ; fail); [|exact S2]. cbn [orec app].
    cbn [jpeg_inserted] in HJ. change ["SIZE"; "DATA"; "NAME"; "PATH"; "INME"]%string with (map fst Jpeg_arms) in HJ.
    cbn [opt_ok] in Hj. pose proof (Jpeg_steps j Hj) as SJ. rewrite jpeg_recs in SJ.
    apply (Steps_inserted _ _ _ _) with (rs' := js) in SJ; [|exact HJ].
    unfold R0. econstructor; [reflexivity| |exact S2].
    intros pre tail w0 c. unfold dispatch.
    change (lookup "JPEG"%string ImageData_arms) with (Some (fun s => x <- with_child Jpeg_loop ;; rret (set_im_jpeg (Some (js_jpeg x)) s))).
    cbv beta iota. rewrite <- (stream_enc_tags js (Steps_recs_valid _ _ _ _ SJ)).
    erewrite bindM_ok.
    2:{ apply with_child_at. intros tl. refine (read_arms_steps Jpeg_arms Jpeg_init _ _ [] tl "" false c SJ _). discriminate. }
    reflexivity.
Qed.
Lemma tags_valid rs : forallb (fun r => tag_ok (fst r)) rs = true -> Forall (fun r : string * bytes => valid_tag (fst r)) rs.
Proof. intros H. rewrite forallb_forall in H. apply Forall_forall. intros r Hr. apply tag_ok_valid, H, Hr. Qed.
Lemma image_written v : image_fits v ->
  ImageData_write v = Ok (image_bytes (image_head v) (picture_bytes (im_bits v) (option_map jpeg_records (im_jpeg v))) (image_tail v)).
Proof.
  intros H. apply image_fits_iff in H. rewrite Image_write by exact H. f_equal.
  rewrite <- image_layout_enc.
  - unfold Image_recs. rewrite image_head_recs, image_tail_recs. unfold picture_recs. rewrite <- !app_assoc. f_equal. f_equal. f_equal. f_equal.
    destruct (im_jpeg v) as [j|] eqn:Ej; [|reflexivity]. cbn [option_map orec]. unfold Jpeg_bytes. rewrite jpeg_recs. f_equal. f_equal.
    apply stream_enc_tags. apply tags_valid. unfold jpeg_records, opt_record. destruct (ij_internal_name j); reflexivity.
  - apply tags_valid. unfold image_head, opt_record. destruct (im_internal_name v), (im_link v); reflexivity.
  - apply tags_valid. unfold image_tail, opt_record. destruct (im_md5_hash v), (im_is_opaque v), (im_is_signed v); reflexivity.
Qed.
Lemma Inserted_all_refl known rs : Inserted known rs rs.
Proof. apply Inserted_refl. Qed.
Lemma image_stored v : image_fits v -> one_kind v ->
  ImageData_write v = Ok (image_bytes (image_head v) (picture_bytes (im_bits v) (option_map jpeg_records (im_jpeg v))) (image_tail v)) /\
  forall checked hs js ts,
    Inserted (map fst ImageData_arms) (image_head v) hs -> jpeg_inserted (im_jpeg v) js ->
    Inserted (map fst ImageData_arms) (image_tail v) ts ->
    (im_bits v = None \/ hd_error ts = hd_error (image_tail v)) ->
    ImageData_read checked (image_bytes hs (picture_bytes (im_bits v) js) ts) = Ok v.
Proof.
  intros H1 H2. split; [apply image_written, H1|]. intros. apply image_read_inserted; assumption.
Qed.
Lemma image_roundtrip v : image_fits v -> one_kind v ->
  exists b, ImageData_write v = Ok b /\ forall checked, ImageData_read checked b = Ok v.
Proof. intros H1 H2. apply Image_roundtrip; [apply image_fits_iff, H1|apply one_kind_iff, H2]. Qed.
Lemma image_resave checked input v : size_fits (zlen input) -> ImageData_read checked input = Ok v -> one_kind v ->
  exists output, ImageData_write v = Ok output /\ forall checked', ImageData_read checked' output = Ok v.
Proof.
  intros Hb E H2. apply size_fits_iff in Hb. apply Image_roundtrip; [|apply one_kind_iff, H2].
  exact (run_reader_yields _ _ Image_yields _ _ _ Hb E).
Qed.
Lemma image_terminates checked input : ImageData_read checked input <> OutOfFuel.
Proof. apply run_reader_term, Image_term. Qed.

(** What happens with both kinds of picture data: the JPEG part becomes part of the bitmap. *)
Lemma image_two_kinds v b j : image_fits v -> im_bits v = Some b -> im_jpeg v = Some j ->
  ~ contains_marker (picture_bytes (Some b) (Some (jpeg_records j))) ->
  exists output, ImageData_write v = Ok output /\
    forall checked, ImageData_read checked output
      = Ok (set_im_jpeg None (set_im_bits (Some (b ++ record_bytes ("JPEG"%string, []) ++ stream_bytes (jpeg_records j))) v)).
Proof.
  intros HF Eb Ej HM. eexists. split; [apply image_written, HF|]. intros checked. rewrite Eb, Ej. cbn [option_map].
  set (b' := b ++ _). set (v' := set_im_jpeg None (set_im_bits (Some b') v)).
  assert (E : image_bytes (image_head v) (picture_bytes (Some b) (Some (jpeg_records j))) (image_tail v)
              = image_bytes (image_head v') (picture_bytes (im_bits v') None) (image_tail v')).
  { unfold v', b'. change (image_head (set_im_jpeg None ?x)) with (image_head x). change (image_head (set_im_bits ?y ?x)) with (image_head x).
    change (image_tail (set_im_jpeg None ?x)) with (image_tail x). change (image_tail (set_im_bits ?y ?x)) with (image_tail x).
    change (im_bits (set_im_jpeg None (set_im_bits (Some ?x) v))) with (Some x). unfold image_bytes, picture_bytes. rewrite app_nil_r, <- !app_assoc. reflexivity. }
  rewrite E. apply image_read_inserted; try apply Inserted_refl.
  - destruct HF as (F1 & F2 & F3 & F4 & F5 & F6). unfold v'. repeat split; try assumption; try apply F1; try apply F3.
    cbn [option_all im_bits set_im_jpeg set_im_bits]. intros (x & y & Ex). apply HM. unfold picture_bytes.
    exists (record_bytes ("BITS"%string, []) ++ x), y. rewrite <- !app_assoc. f_equal. exact Ex.
  - right. reflexivity.
  - exact I.
  - right. reflexivity.
Qed.

(** ** Blocks *)
Lemma framed_cons b bs : framed (b :: bs) = (Z_to_byte (zlen b) :: b) ++ framed bs.
Proof. reflexivity. Qed.
Lemma from_blocks_take (b : bytes) : forall rest, from_blocks_go (List.length b) (b ++ rest) = r <~ from_blocks_go 0 rest ;; Ok (b ++ r).
Proof.
  induction b as [|x b IH]; intros rest.
  - cbn [List.length app]. destruct (from_blocks_go 0 rest); reflexivity.
  - cbn [List.length app from_blocks_go]. rewrite IH. destruct (from_blocks_go 0 rest); reflexivity.
Qed.
Lemma from_blocks_framed bs : Forall (fun b : bytes => zlen b <= 255) bs -> from_blocks (framed bs) = Ok (List.concat bs).
Proof.
  intros H. unfold from_blocks. induction H as [|b bs Hb _ IH]; [reflexivity|].
  rewrite framed_cons. cbn [app from_blocks_go]. rewrite byte_to_Z_to_byte. pose proof (zlen_nonneg b). rewrite Z.mod_small by lia.
  unfold zlen. rewrite Nat2Z.id, from_blocks_take, IH. reflexivity.
Qed.
Lemma from_blocks_inv_go d : forall need r, from_blocks_go need d = Ok r ->
  exists b bs, List.length b = need /\ d = b ++ framed bs /\ r = b ++ List.concat bs /\ Forall (fun b : bytes => zlen b <= 255) bs.
Proof.
  induction d as [|x d IH]; intros need r E.
  - cbn in E. destruct need; [|discriminate]. injection E as <-. exists [], []. repeat split. constructor.
  - cbn [from_blocks_go] in E. destruct need as [|need].
    + apply IH in E. destruct E as (b & bs & Hl & -> & -> & HF). exists [], (b :: bs). repeat split.
      * rewrite framed_cons. cbn [app]. f_equal. unfold zlen. rewrite Hl. rewrite Z2Nat.id by apply byte_to_Z_range. rewrite Z_to_byte_to_Z. reflexivity.
      * constructor; [|exact HF]. unfold zlen. rewrite Hl, Z2Nat.id by apply byte_to_Z_range. pose proof (byte_to_Z_range x). lia.
    + destruct (from_blocks_go need d) as [r'|] eqn:E'; [|discriminate]. cbn [rbind] in E. injection E as <-.
      apply IH in E'. destruct E' as (b & bs & Hl & -> & -> & HF). exists (x :: b), bs. repeat split; [|exact HF]. cbn. lia.
Qed.
Lemma from_blocks_inv d r : from_blocks d = Ok r ->
  exists bs, d = framed bs /\ r = List.concat bs /\ Forall (fun b : bytes => zlen b <= 255) bs.
Proof.
  intros E. apply from_blocks_inv_go in E. destruct E as (b & bs & Hl & -> & -> & HF). destruct b; [|discriminate]. exists bs. auto.
Qed.
Lemma from_blocks_panic_go d : forall need f, from_blocks_go need d = Fail f -> f = PanicF.
Proof.
  induction d as [|x d IH]; intros need f E; cbn in E.
  - destruct need; [discriminate|]. congruence.
  - destruct need; [apply (IH _ _ E)|]. destruct (from_blocks_go need d) eqn:E'; [discriminate|]. cbn in E. injection E as <-. apply (IH _ _ E').
Qed.
Lemma from_blocks_total d : (exists r, from_blocks d = Ok r) \/ from_blocks d = Panic.
Proof.
  destruct (from_blocks d) as [r|f] eqn:E; [eauto|]. right. apply from_blocks_panic_go in E. subst. reflexivity.
Qed.

Definition full_but_last (max : Z) (bs : list bytes) : Prop := Forall (fun b : bytes => zlen b = max) (removelast bs).
Lemma to_blocks_go_spec checked max : 1 <= max <= 255 -> forall d block n,
  n = zlen block -> n < max ->
  exists bs, to_blocks_go checked max d block n = Ok (framed bs) /\ List.concat bs = block ++ d /\
    Forall (fun b : bytes => 1 <= zlen b <= max) bs /\ full_but_last max bs.
Proof.
  intros Hmax. induction d as [|x d IH]; intros block n Hn Hlt.
  - cbn [to_blocks_go]. rewrite app_nil_r. pose proof (zlen_nonneg block). destruct (0 <? n) eqn:E0.
    + exists [block]. rewrite framed_cons. cbn [framed flat_map List.concat app removelast]. rewrite !app_nil_r, Hn. repeat split; try (repeat constructor; lia).
    + exists []. destruct block; [repeat split; constructor|]. rewrite zlen_cons in Hn. pose proof (zlen_nonneg block). lia.
  - cbn [to_blocks_go]. pose proof (zlen_nonneg block).
    replace (checked && (n =? 255)) with false by (destruct checked; cbn [andb]; [lia|reflexivity]). cbv zeta.
    rewrite Z.mod_small by lia. assert (Hl : zlen (block ++ [x]) = n + 1) by (rewrite zlen_app; change (zlen [x]) with 1; lia).
    destruct (n + 1 =? max) eqn:Em.
    + destruct (IH [] 0 eq_refl ltac:(lia)) as (bs & E & C & F & L). rewrite E. cbn [rbind].
      exists ((block ++ [x]) :: bs). rewrite framed_cons, Hl. repeat split.
      * cbn [List.concat]. rewrite C, <- app_assoc. reflexivity.
      * constructor; [lia|exact F].
      * unfold full_but_last in *. destruct bs; [constructor|]. change (removelast ((block ++ [x]) :: b :: bs)) with ((block ++ [x]) :: removelast (b :: bs)).
        constructor; [lia|exact L].
    + destruct (IH (block ++ [x]) (n + 1) ltac:(lia) ltac:(lia)) as (bs & E & C & F & L). exists bs. rewrite E, C, <- app_assoc.
      repeat split; assumption.
Qed.
Lemma to_blocks_spec checked d max : 1 <= max <= 255 ->
  exists bs, to_blocks checked d max = Ok (framed bs) /\ List.concat bs = d /\
    Forall (fun b : bytes => 1 <= zlen b <= max) bs /\ full_but_last max bs.
Proof. intros H. apply (to_blocks_go_spec checked max H d [] 0); [reflexivity|lia]. Qed.
Lemma blocks_roundtrip checked d max : 1 <= max <= 255 ->
  exists b, to_blocks checked d max = Ok b /\ from_blocks b = Ok d.
Proof.
  intros H. destruct (to_blocks_spec checked d max H) as (bs & E & C & F & _). exists (framed bs). split; [exact E|].
  rewrite from_blocks_framed; [rewrite C; reflexivity|]. eapply Forall_impl; [|exact F]. cbn. intros; lia.
Qed.

(** ** Pixels *)
Lemma swap_pixels l : swap_red_and_blue (pixels_bytes l) = pixels_bytes (map swap_px l).
Proof. induction l as [|p l IH]; [reflexivity|]. cbn. f_equal. f_equal. f_equal. f_equal. exact IH. Qed.
Lemma swap_swap_pixels l : swap_red_and_blue (swap_red_and_blue (pixels_bytes l)) = pixels_bytes l.
Proof. rewrite !swap_pixels, map_map. f_equal. rewrite <- (map_id l) at 2. apply map_ext. intros []. reflexivity. Qed.
Lemma four_ind (P : bytes -> Prop) : P [] -> (forall a, P [a]) -> (forall a b, P [a; b]) -> (forall a b c, P [a; b; c]) ->
  (forall a b c e d, P d -> P (a :: b :: c :: e :: d)) -> forall d, P d.
Proof.
  intros H0 H1 H2 H3 H4. fix F 1. intros [|a [|b [|c [|e d]]]]; [apply H0|apply H1|apply H2|apply H3|apply H4, F].
Qed.
Lemma zlen_four a b c e (d : bytes) : zlen (a :: b :: c :: e :: d) = 4 + zlen d.
Proof. rewrite !zlen_cons. lia. Qed.
Lemma whole_pixels d : zlen d mod 4 = 0 -> exists l, d = pixels_bytes l.
Proof.
  revert d. apply (four_ind (fun d => zlen d mod 4 = 0 -> exists l, d = pixels_bytes l)).
  - intros _. exists []. reflexivity.
  - intros; discriminate.
  - intros; discriminate.
  - intros; discriminate.
  - intros a b c e d IH H. rewrite zlen_four in H. replace (4 + zlen d) with (zlen d + 1 * 4) in H by lia. rewrite Z.mod_add in H by lia.
    destruct (IH H) as [l ->]. exists (Px a b c e :: l). reflexivity.
Qed.
Lemma pixels_length l : zlen (pixels_bytes l) = 4 * zlen l.
Proof. induction l as [|p l IH]; [reflexivity|]. cbn [pixels_bytes flat_map app]. rewrite zlen_four, zlen_cons. fold (pixels_bytes l). lia. Qed.
Lemma swap_length d : zlen (swap_red_and_blue d) = 4 * (zlen d / 4).
Proof.
  revert d. apply four_ind; try reflexivity.
  intros a b c e d IH. cbn [swap_red_and_blue]. rewrite !zlen_four, IH. replace (4 + zlen d) with (zlen d + 1 * 4) by lia. rewrite Z.div_add by lia. lia.
Qed.
Lemma swap_ignores_rest l r : zlen r < 4 -> swap_red_and_blue (pixels_bytes l ++ r) = swap_red_and_blue (pixels_bytes l).
Proof.
  intros Hr. induction l as [|p l IH].
  - destruct r as [|a [|b [|c [|e r]]]]; try reflexivity. rewrite zlen_four in Hr. pose proof (zlen_nonneg r). lia.
  - cbn. f_equal. f_equal. f_equal. f_equal. exact IH.
Qed.
Lemma uses_alpha_pixels l : uses_alpha (pixels_bytes l) = true <-> Exists (fun p => ch3 p <> xff) l.
Proof.
  induction l as [|p l IH].
  - cbn. split; [discriminate|intros H; inversion H].
  - cbn [pixels_bytes flat_map app uses_alpha]. fold (pixels_bytes l). rewrite orb_true_iff, IH, Exists_cons, negb_true_iff.
    split; intros [H|H]; auto; left.
    + intros E. rewrite E in H. discriminate.
    + destruct (Byte.eqb (ch3 p) xff) eqn:E; [|reflexivity]. apply Byte.byte_dec_bl in E. contradiction.
Qed.
Lemma add_drop_alpha l : uses_alpha (pixels_bytes l) = false -> forall n, (List.length l = n)%nat ->
  add_alpha n (drop_alpha n (pixels_bytes l)) = pixels_bytes l.
Proof.
  induction l as [|p l IH]; intros H n Hn; subst n; [reflexivity|].
  cbn [pixels_bytes flat_map app uses_alpha List.length drop_alpha add_alpha] in *. fold (pixels_bytes l) in *.
  apply orb_false_iff in H. destruct H as [H1 H2]. apply negb_false_iff in H1. apply Byte.byte_dec_bl in H1. rewrite H1, IH by auto. reflexivity.
Qed.
Lemma swap_uses_alpha l : uses_alpha (pixels_bytes (map swap_px l)) = uses_alpha (pixels_bytes l).
Proof.
  induction l as [|p l IH]; [reflexivity|]. cbn [map pixels_bytes flat_map app uses_alpha swap_px ch0 ch1 ch2 ch3].
  fold (pixels_bytes l). fold (pixels_bytes (map swap_px l)). rewrite IH. reflexivity.
Qed.

(** Export to a bitmap file and import. *)
Lemma bitmap_export_import lzw_encode lzw_decode bmp_encode load checked d px width height :
  0 <= width -> 0 <= height -> zlen px = 4 * width * height ->
  from_lzw_blocks lzw_decode d = Ok px ->
  (forall img, vpx_image_to_dynamic_image lzw_decode d width height = Ok img -> exists file, bmp_encode img = Ok file /\ load file = Ok img) ->
  (exists c, lzw_encode px = Ok c /\ lzw_decode c = Ok px) ->
  exists file d', write_image_bmp lzw_decode bmp_encode d width height = Ok file /\
    read_image_bmp lzw_encode load checked file = Ok (width, height, d') /\ from_lzw_blocks lzw_decode d' = Ok px.
Proof.
  intros Hw Hh Hl Hd Hbmp (c & Ec & Dc).
  assert (HW : zlen px mod 4 = 0). { rewrite Hl. replace (4 * width * height) with (width * height * 4) by lia. apply Z.mod_mul. lia. }
  destruct (whole_pixels px HW) as [l ->]. rewrite pixels_length in Hl.
  assert (HT : exists b', to_lzw_blocks lzw_encode checked (pixels_bytes l) = Ok b' /\ from_lzw_blocks lzw_decode b' = Ok (pixels_bytes l)).
  { destruct (blocks_roundtrip checked c 254 ltac:(lia)) as (b & Eb & Db). exists b. unfold to_lzw_blocks, from_lzw_blocks. rewrite Ec, Db. cbn [rbind]. split; assumption. }
  destruct HT as (b' & Eb' & Db').
  unfold write_image_bmp, read_image_bmp.
  unfold vpx_image_to_dynamic_image in *. rewrite Hd in *. cbn [rbind] in *. rewrite swap_pixels in *.
  rewrite pixels_length in *. replace (zlen (map swap_px l)) with (zlen l) in * by (unfold zlen; rewrite map_length; reflexivity).
  replace (4 * zlen l <? 4 * width * height) with false in * by lia.
  assert (HN : List.length l = Z.to_nat (width * height)) by (unfold zlen in Hl; lia).
  destruct (uses_alpha (pixels_bytes l)) eqn:Eu.
  - destruct (Hbmp _ eq_refl) as (file & E1 & E2). exists file, b'. cbn [rbind]. rewrite E1, E2. cbn [rbind].
    rewrite swap_pixels, map_map. rewrite (map_ext _ (fun p => p)) by (intros []; reflexivity). rewrite map_id, Eb'. cbn [rbind]. auto.
  - destruct (Hbmp _ eq_refl) as (file & E1 & E2). exists file, b'. cbn [rbind]. rewrite E1, E2. cbn [rbind].
    rewrite add_drop_alpha by (rewrite ?swap_uses_alpha, ?map_length; assumption).
    rewrite swap_pixels, map_map. rewrite (map_ext _ (fun p => p)) by (intros []; reflexivity). rewrite map_id, Eb'. cbn [rbind]. auto.
Qed.

(** ** Extensions *)
Lemma after_last_dot_some p e : after_last_dot p = Some e <-> exists q, p = q ++ dot :: e /\ ~ In dot e.
Proof.
  revert e. induction p as [|c p IH]; intros e.
  - cbn. split; [discriminate|]. intros (q & E & _). destruct q; discriminate.
  - cbn [after_last_dot]. destruct (after_last_dot p) as [r|] eqn:Er.
    + split.
      * intros E. injection E as <-. destruct (proj1 (IH r) eq_refl) as (q & -> & HN). exists (c :: q). split; [reflexivity|exact HN].
      * intros (q & E & HN). destruct q as [|x q].
        -- cbn in E. injection E as -> ->. destruct (proj1 (IH r) eq_refl) as (q & -> & _). exfalso. apply HN. apply in_or_app. right. left. reflexivity.
        -- cbn in E. injection E as -> ->. f_equal. assert (X : Some r = Some e) by (apply IH; exists q; auto). congruence.
    + destruct (c =? dot)%N eqn:Ec.
      * apply N.eqb_eq in Ec. subst c. split.
        -- intros E. injection E as <-. exists []. split; [reflexivity|]. intros Hin. apply in_split in Hin. destruct Hin as (l1 & l2 & E).
           assert (HX : exists l1 l2, p = l1 ++ dot :: l2 /\ ~ In dot l2).
           { clear -E. revert l1 l2 E. induction p as [|x p IHp] using rev_ind; intros l1 l2 E; [destruct l1; discriminate|].
             destruct (N.eq_dec x dot) as [->|Hx]; [exists p, []; split; [reflexivity|intros []]|].
             assert (Hin : In dot p). { assert (In dot (p ++ [x])) as Y by (rewrite E; apply in_or_app; right; left; reflexivity).
               apply in_app_or in Y. destruct Y as [Y|[Y|[]]]; [exact Y|congruence]. }
             apply in_split in Hin. destruct Hin as (m1 & m2 & Em). destruct (IHp _ _ Em) as (n1 & n2 & -> & HN).
             exists n1, (n2 ++ [x]). split; [rewrite <- app_assoc; reflexivity|]. intros Y. apply in_app_or in Y. destruct Y as [Y|[Y|[]]]; [contradiction|congruence]. }
           destruct HX as (m1 & m2 & Em & HN). assert (Y : None = Some m2) by (apply IH; exists m1; auto). discriminate.
        -- intros (q & E & HN). destruct q as [|x q]; cbn [app] in E; [injection E as ->; reflexivity|]. injection E as <- ->.
           assert (Y : None = Some e) by (apply IH; exists q; auto). discriminate.
      * split; [discriminate|]. intros (q & E & HN). destruct q as [|x q]; cbn in E.
        -- injection E as -> ->. rewrite N.eqb_refl in Ec. discriminate.
        -- injection E as -> ->. assert (Y : None = Some e) by (apply IH; exists q; auto). discriminate.
Qed.
Lemma after_last_dot_none p : after_last_dot p = None <-> ~ In dot p.
Proof.
  induction p as [|c p IH]; [cbn; intuition|]. cbn [after_last_dot]. destruct (after_last_dot p) as [r|] eqn:Er.
  - split; [discriminate|]. intros HN. exfalso. apply after_last_dot_some in Er. destruct Er as (q & -> & _). apply HN. right. apply in_or_app. right. left. reflexivity.
  - destruct (c =? dot)%N eqn:Ec.
    + apply N.eqb_eq in Ec. split; [discriminate|]. intros HN. exfalso. apply HN. left. exact Ec.
    + apply N.eqb_neq in Ec. split; [|reflexivity]. intros _ [H|H]; [congruence|]. apply (proj1 IH eq_refl H).
Qed.
Lemma path_ext_split q e : ~ In dot e -> path_ext (q ++ dot :: e) = e.
Proof. intros H. unfold path_ext. replace (after_last_dot (q ++ dot :: e)) with (Some e); [reflexivity|]. symmetry. apply after_last_dot_some. eauto. Qed.
Lemma path_ext_plain p : ~ In dot p -> path_ext p = p.
Proof. intros H. unfold path_ext. apply after_last_dot_none in H. rewrite H. reflexivity. Qed.
Lemma alnum_no_dot e : forallb is_ascii_alnum e = true -> ~ In dot e.
Proof. intros H Hin. rewrite forallb_forall in H. specialize (H _ Hin). discriminate. Qed.
Lemma replace_ext_split (q e ext : list uchar) : e <> [] -> forallb is_ascii_alnum e = true -> replace_ext ext (q ++ dot :: e) = q ++ dot :: ext.
Proof.
  intros He Ha. unfold replace_ext. replace (after_last_dot (q ++ dot :: e)) with (Some e).
  2:{ symmetry. apply after_last_dot_some. exists q. split; [reflexivity|apply alnum_no_dot, Ha]. }
  assert (H0 : 0 <? zlen e = true). { destruct e; [congruence|]. rewrite zlen_cons. pose proof (zlen_nonneg e). lia. }
  match goal with |- (if ?c then _ else _) = _ => replace c with true by (symmetry; apply andb_true_iff; split; assumption) end. replace (q ++ dot :: e) with ((q ++ [dot]) ++ e) by (rewrite <- app_assoc; reflexivity).
  rewrite zlen_app. replace (zlen (q ++ [dot]) + zlen e - zlen e) with (zlen (q ++ [dot])) by lia. 
  unfold zlen. rewrite Nat2Z.id, firstn_app, Nat.sub_diag, firstn_all. cbn [firstn]. rewrite app_nil_r, <- app_assoc. reflexivity.
Qed.
Lemma replace_ext_other p ext : (forall q e, p = q ++ dot :: e -> e <> [] -> forallb is_ascii_alnum e = true -> False) -> replace_ext ext p = p.
Proof.
  intros H. unfold replace_ext. destruct (after_last_dot p) as [e|] eqn:E; [|reflexivity].
  apply after_last_dot_some in E. destruct E as (q & E & _). destruct ((0 <? zlen e) && forallb is_ascii_alnum e) eqn:Ec; [|reflexivity].
  exfalso. apply andb_true_iff in Ec. destruct Ec as [E0 Ea]. apply (H q e E); [|exact Ea]. intros ->. discriminate.
Qed.
Lemma alnum_Forall e : forallb is_ascii_alnum e = true <-> Forall (fun c => is_ascii_alnum c = true) e.
Proof. rewrite forallb_forall, Forall_forall. reflexivity. Qed.
Lemma replace_ext_changed ext p :
  (exists q e, p = q ++ dot :: e /\ e <> [] /\ Forall (fun c => is_ascii_alnum c = true) e /\ replace_ext ext p = q ++ dot :: ext) \/
  ((forall q e, p = q ++ dot :: e -> e <> [] -> Forall (fun c => is_ascii_alnum c = true) e -> False) /\ replace_ext ext p = p).
Proof.
  assert (D : (exists q e, p = q ++ dot :: e /\ e <> [] /\ forallb is_ascii_alnum e = true) \/
              (forall q e, p = q ++ dot :: e -> e <> [] -> forallb is_ascii_alnum e = true -> False)).
  { destruct (after_last_dot p) as [e|] eqn:E.
    - pose proof E as E'. apply after_last_dot_some in E'. destruct E' as (q & E' & HN).
      destruct (forallb is_ascii_alnum e) eqn:Ea; [destruct e as [|c e]|].
      + right. intros q2 e2 E2 He Ha2. assert (X : after_last_dot p = Some e2) by (apply after_last_dot_some; exists q2; split; [exact E2|apply alnum_no_dot, Ha2]).
        rewrite E in X. injection X as <-. contradiction.
      + left. exists q, (c :: e). repeat split; [exact E'|discriminate|exact Ea].
      + right. intros q2 e2 E2 He Ha2. assert (X : after_last_dot p = Some e2) by (apply after_last_dot_some; exists q2; split; [exact E2|apply alnum_no_dot, Ha2]).
        rewrite E in X. injection X as <-. unfold uchar in *. rewrite Ha2 in Ea. discriminate.
    - right. intros q e E' _ _. apply after_last_dot_none in E. apply E. rewrite E'. apply in_or_app. right. left. reflexivity. }
  destruct D as [(q & e & E & He & Ha)|D].
  - left. exists q, e. subst p. repeat split; [exact He|apply alnum_Forall, Ha|]. apply replace_ext_split; assumption.
  - right. split; [|apply replace_ext_other, D]. intros q e E He Ha. apply (D q e E He), alnum_Forall, Ha.
Qed.

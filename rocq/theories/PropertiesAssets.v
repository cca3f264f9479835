(** C32, C33: extracted sounds, images and fonts. *)
From Verif Require Import Base Text Quantize Enums Structs Image Sound SpecSound Cfb FileSystem ExpandedAssets SpecAssets.
From Verif Require Import BaseFacts SoundFacts CfbFacts AssetFacts PropertiesSound PropertiesImage.

(** C32: when a list of sounds was extracted, reading the directory gives the same list, and every sound has a file of its own.
    Whatever was in the directory before is irrelevant, and so are the conversions of names. *)
Theorem C32_sounds : forall sanitize lower key checked sounds dir index dir', Forall extractable_sound sounds ->
  write_sounds sanitize lower key checked sounds dir = Ok (index, dir') ->
  read_sounds key (Some index) dir' = Ok sounds /\ List.length dir' = (List.length dir + List.length sounds)%nat.
Proof.
  intros sanitize lower key checked sounds dir index dir' X H. split.
  - apply (sounds_read_back sanitize lower key checked sounds dir index dir' H X). intros s file Hs W.
    destruct (proj1 (Forall_forall _ _) X s Hs) as (H1 & H2 & H3 & H4 & H5).
    destruct (C12_extracted_sound_restored checked s H1 H2 H3 H4 H5) as (f & Ef & Rf). congruence.
  - unfold write_sounds in H. destruct (write_sound_files _ _ _ dir) as [d|] eqn:W; [|discriminate]. cbn [rbind] in H. injection H as _ <-.
    rewrite (sound_files_count _ _ _ _ _ W). f_equal. rewrite <- (map_length snd), (proj1 (indexed_sounds_fst sanitize lower sounds)). reflexivity.
Qed.
Print Assumptions C32_sounds.
(** C32: extracting succeeds for ordinary names, however many of them are the same. *)
Theorem C32_sounds_written : forall sanitize lower key checked sounds, keeps_dedup lower -> tells_apart key lower ->
  Forall (ordinary_name sanitize lower) (map so_name sounds) -> Forall extractable_sound sounds ->
  exists index dir', write_sounds sanitize lower key checked sounds [] = Ok (index, dir').
Proof.
  intros sanitize lower key checked sounds Hd Hk Ho Hx. apply sounds_written; try assumption. intros s Hs.
  destruct (proj1 (Forall_forall _ _) Hx s Hs) as (H1 & H2 & H3 & H4 & H5).
  destruct (C12_extracted_sound_restored checked s H1 H2 H3 H4 H5) as (f & Ef & _). eauto.
Qed.
Print Assumptions C32_sounds_written.

(** Oracles for examples: only '/' is not allowed in file names, and capital ASCII letters are lowered. *)
Definition no_slash (s : rstring) : rstring := filter (fun c => negb (c =? 47)%N) s.
Definition low (s : rstring) : rstring := map (fun c => if ((65 <=? c) && (c <=? 90))%N then (c + 32)%N else c) s.
Lemma low_app a b : low (a ++ b) = low a ++ low b.
Proof. apply map_app. Qed.
Lemma low_digits k : low (dec_text k) = dec_text k.
Proof.
  unfold low. pose proof (dec_text_digits k) as D. induction D as [|c l H D IH]; [reflexivity|]. cbn [map]. f_equal; [|exact IH].
  change uchar with N in *. destruct (65 <=? c)%N eqn:E; cbn [andb]; [|reflexivity]. exfalso. lia.
Qed.
Example C32_oracles : keeps_dedup low /\ tells_apart low low.
Proof.
  split.
  - intros s. exists (low s). intros k. rewrite !low_app, low_digits. reflexivity.
  - intros a b e f He Hf. rewrite !low_app. change (low (lit ".")) with (lit ".").
    assert (G : forall e, ~ In 46%N e -> ~ In 46%N (low e)).
    { clear. intros e H K. apply H. unfold low in K. apply in_map_iff in K. destruct K as (c & E & Hc). change uchar with N in *.
      destruct (65 <=? c)%N eqn:E1; cbn [andb] in E; [destruct (c <=? 90)%N eqn:E2|]; [lia|subst c; exact Hc|subst c; exact Hc]. }
    generalize (low a) (low b) (G _ He) (G _ Hf). generalize (low e) (low f). clear. change (lit ".") with [46%N].
    intros e f a. revert e f. induction a as [|c a IH]; intros e f b He Hf E; destruct b as [|d b]; cbn [app] in E.
    + reflexivity.
    + injection E as <- E. exfalso. apply He. rewrite E. apply in_or_app. right. left. reflexivity.
    + injection E as -> E. exfalso. apply Hf. rewrite <- E. apply in_or_app. right. left. reflexivity.
    + injection E as -> E. f_equal. exact (IH e f b He Hf E).
Qed.
Definition sound_called (name : rstring) (d : bytes) : SoundData :=
  mkSoundData name (lit "coin.WAV")
    (mkWaveForm (Z_to_w16 1) (Z_to_w16 2) (Z_to_w32 44100) (Z_to_w32 176400) (Z_to_w16 4) (Z_to_w16 16) (Z_to_w16 0))
    d [] (Z_to_w32 7) (Z_to_w32 100) (Z_to_w32 4294967286) OutputTarget_Backglass.
Example C32_sounds_used : let sounds := [sound_called (lit "Coin") [x01]; sound_called (lit "coin") [x02]; sound_called (lit "COIN") [x03]] in
  Forall (ordinary_name no_slash low) (map so_name sounds) /\ Forall extractable_sound sounds /\
  exists index dir, write_sounds no_slash low low true sounds [] = Ok (index, dir) /\
    map fst dir = [lit "coin.wav"; lit "coin_dedup1.wav"; lit "coin_dedup2.wav"].
Proof.
  cbv zeta. split; [|split].
  - cbn [map so_name sound_called].
    assert (G : forall n, low n = lit "coin" -> no_slash n = n -> ordinary_name no_slash low n).
    { intros n L S. split; [exact S|]. intros p k E. rewrite L in E. assert (M : In 95%N (lit "coin")) by (rewrite E; apply in_or_app; right; left; reflexivity).
      cbn in M. repeat (destruct M as [M|M]; [discriminate M|]). exact M. }
    repeat (apply Forall_cons; [apply G; reflexivity|]). apply Forall_nil.
  - repeat (apply Forall_cons; [unfold extractable_sound; vm_compute; repeat split; discriminate|]). apply Forall_nil.
  - do 2 eexists. split; vm_compute; reflexivity.
Qed.

(** C32, finding: a sound called like the file made up for a duplicate stops the extraction. *)
Theorem C32_dedup_collision_refuted : exists sounds, Forall extractable_sound sounds /\ NoDup (map so_data sounds) /\
  Forall (fun s => no_slash (so_name s) = so_name s) sounds /\ write_sounds no_slash low low true sounds [] = Err.
Proof.
  exists [sound_called (lit "a_dedup1") [x01]; sound_called (lit "a") [x02]; sound_called (lit "a") [x03]].
  split; [repeat (apply Forall_cons; [unfold extractable_sound; vm_compute; repeat split; discriminate|]); apply Forall_nil|].
  split; [repeat (constructor; [cbn; intuition discriminate|]); constructor|].
  split; [repeat constructor|]. vm_compute. reflexivity.
Qed.
Print Assumptions C32_dedup_collision_refuted.
(** C32, finding: file names are made from sanitised names, except those of duplicates.  A table with two sounds of the same bad name
    is extracted to a file outside the directory. *)
Theorem C32_outside_directory_refuted : exists sounds index dir file, Forall extractable_sound sounds /\
  write_sounds no_slash low (fun n => n) true sounds [] = Ok (index, dir) /\ In file (map fst dir) /\ exists rest, file = lit "../../" ++ rest.
Proof.
  exists [sound_called (lit "../../x") [x01]; sound_called (lit "../../x") [x02]]. do 3 eexists.
  split; [repeat (apply Forall_cons; [unfold extractable_sound; vm_compute; repeat split; discriminate|]); apply Forall_nil|].
  split; [vm_compute; reflexivity|]. split; [right; left; reflexivity|]. exists (lit "x_dedup1.WAV"). reflexivity.
Qed.
Print Assumptions C32_outside_directory_refuted.

(** C32: the same for images; a bitmap may come back in another compression of the same pixels. *)
Theorem C32_images : forall sanitize lower key dimensions lzw_encode lzw_decode bmp_encode load checked images dir index dir',
  Forall (extractable_image lzw_encode lzw_decode bmp_encode load) images ->
  write_images sanitize lower key dimensions lzw_decode bmp_encode images dir = Ok (index, dir') ->
  (exists got, read_images key dimensions lzw_encode load checked (Some index) dir' = Ok got /\ Forall2 (same_image lzw_decode) images got) /\
  List.length dir' = (List.length dir + List.length (filter (fun v => negb (ImageData_is_link v)) images))%nat.
Proof.
  intros sanitize lower key dimensions lzw_encode lzw_decode bmp_encode load checked images dir index dir' X H. split.
  - exact (images_read_back sanitize lower key dimensions lzw_encode lzw_decode bmp_encode load checked images dir index dir' H X).
  - unfold write_images in H. destruct (write_image_files _ _ _ _ dir) as [d|] eqn:W; [|discriminate]. cbn [rbind] in H. injection H as _ <-.
    rewrite (image_files_count _ _ _ _ _ _ W). rewrite (proj1 (indexed_images_fst sanitize lower dimensions images)). reflexivity.
Qed.
Print Assumptions C32_images.
Theorem C32_images_written : forall sanitize lower key dimensions lzw_encode lzw_decode bmp_encode load images, keeps_dedup lower ->
  tells_apart key lower -> Forall (ordinary_name sanitize lower) (map im_name images) ->
  Forall (extractable_image lzw_encode lzw_decode bmp_encode load) images ->
  exists index dir', write_images sanitize lower key dimensions lzw_decode bmp_encode images [] = Ok (index, dir').
Proof. intros. eapply images_written; eassumption. Qed.
Print Assumptions C32_images_written.
(** A file, a bitmap of one pixel and a link; the size of the file differs from the one in the table. *)
Definition image_file (name : rstring) (d : bytes) : ImageData :=
  mkImageData name None (lit "c:\a.png") (Z_to_w32 640) (Z_to_w32 480) None ALPHA_TEST_VALUE_DEFAULT (Some true) None
    (Some (mkImageDataJpeg (lit "c:\b.png") name (Some (lit "x")) d)) None (Some (repeat x5a 16)).
Definition image_bitmap (name : rstring) (px : bytes) : ImageData :=
  mkImageData name None (lit "c:\a.BMP") (Z_to_w32 1) (Z_to_w32 1) None (Z_to_w32 0) None (Some false) None (Some (x04 :: px)) None.
Definition image_link (name : rstring) : ImageData :=
  mkImageData name None (lit "scr") (Z_to_w32 3) (Z_to_w32 4) (Some (Z_to_w32 1)) (Z_to_w32 0) None None None None None.
Example C32_images_used : let images := [image_file (lit "A") [x89; x50]; image_bitmap (lit "a") [x01; x02; x03; xff]; image_link (lit "a")] in
  let dims := fun _ _ => Some (Z_to_w32 640, Z_to_w32 481) in
  Forall (extractable_image Ok Ok toy_encode toy_load) images /\ Forall (ordinary_name no_slash low) (map im_name images) /\
  exists index dir got, write_images no_slash low low dims Ok toy_encode images [] = Ok (index, dir) /\
    map fst dir = [lit "a.png"; lit "a_dedup1.bmp"] /\
    read_images low dims Ok toy_load true (Some index) dir = Ok got /\ got = images.
Proof.
  cbv zeta. split; [|split].
  - apply Forall_cons; [|apply Forall_cons; [|apply Forall_cons; [|apply Forall_nil]]]; (split; [|split]).
    + reflexivity.
    + intros [=].
    + intros _. split; [intros K; discriminate K|]. intros _. split; [discriminate|reflexivity].
    + exact I.
    + intros [=].
    + intros _. split; [|intros K; destruct (K eq_refl)]. intros _. split; [reflexivity|]. eexists. split; [reflexivity|].
      exists [x01; x02; x03; xff]. split; [reflexivity|]. split; [reflexivity|]. split; [|eexists; split; reflexivity].
      intros img E. vm_compute in E. injection E as <-. eexists. split; reflexivity.
    + exact I.
    + intros _. split; reflexivity.
    + intros K. destruct (K eq_refl).
  - assert (G : forall n, low n = lit "a" -> no_slash n = n -> ordinary_name no_slash low n).
    { intros n L S. split; [exact S|]. intros p k E. rewrite L in E. assert (M : In 95%N (lit "a")) by (rewrite E; apply in_or_app; right; left; reflexivity).
      cbn in M. repeat (destruct M as [M|M]; [discriminate M|]). exact M. }
    repeat (apply Forall_cons; [apply G; reflexivity|]). apply Forall_nil.
  - do 3 eexists. split; [vm_compute; reflexivity|]. split; [reflexivity|]. split; [vm_compute; reflexivity|reflexivity].
Qed.
(** C32, finding: an encoded file that ends in .bmp comes back as pixels, and what was stored is gone. *)
Theorem C32_bmp_file_refuted : exists v index dir got,
  write_images no_slash low low (fun _ _ => None) Ok toy_encode [v] [] = Ok (index, dir) /\
  read_images low (fun _ _ => None) Ok toy_load true (Some index) dir = Ok [got] /\ im_jpeg v <> None /\ im_jpeg got = None.
Proof.
  exists (mkImageData (lit "a") None (lit "a.bmp") (Z_to_w32 1) (Z_to_w32 1) None (Z_to_w32 0) None None
    (Some (mkImageDataJpeg (lit "a.bmp") (lit "a") None [x00; x01; x02; x03])) None None).
  do 3 eexists. split; [vm_compute; reflexivity|]. split; [vm_compute; reflexivity|]. split; [discriminate|reflexivity].
Qed.
Print Assumptions C32_bmp_file_refuted.

(** C33: fonts whose files differ are read back with their own bytes, whatever was in the directory. *)
Theorem C33_fonts : forall sanitize key fonts dir,
  NoDup (map (fun f => key (sanitize (fo_name f) ++ lit "." ++ path_ext (fo_path f))) fonts) ->
  forall index dir', write_fonts sanitize key fonts dir = (index, dir') -> read_fonts sanitize key (Some index) dir' = Ok fonts.
Proof. intros sanitize key fonts dir ND index dir' H. pose proof (fonts_read_back sanitize key fonts dir ND) as G. rewrite H in G. exact G. Qed.
Print Assumptions C33_fonts.
Example C33_used : NoDup (map (fun f => low (no_slash (fo_name f) ++ lit "." ++ path_ext (fo_path f)))
  [mkFontData (lit "Arial") (lit "c:\fonts\arial.ttf") [x01]; mkFontData (lit "Arial") (lit "c:\fonts\arial.otf") [x02];
   mkFontData (lit "Arial/Bold") (lit "arialbd") [x03]]).
Proof. vm_compute. repeat (constructor; [cbn; intuition discriminate|]). constructor. Qed.
(** C33, finding: fonts with the same file name replace each other without an error (names are not made unique here). *)
Theorem C33_same_name_refuted : exists fonts index dir got, NoDup (map fo_name fonts) /\
  write_fonts no_slash low fonts [] = (index, dir) /\ read_fonts no_slash low (Some index) dir = Ok got /\ got <> fonts.
Proof.
  exists [mkFontData (lit "Arial") (lit "a.ttf") [x01]; mkFontData (lit "arial") (lit "b.ttf") [x02]]. do 3 eexists.
  split; [repeat (constructor; [cbn; intuition discriminate|]); constructor|].
  split; [vm_compute; reflexivity|]. split; [vm_compute; reflexivity|]. discriminate.
Qed.
Print Assumptions C33_same_name_refuted.

(** Facts about the files of extracted sounds, images and fonts. *)
From Verif Require Import Base Text Quantize Structs Image Sound SpecSound JsonFloat Cfb FileSystem ExpandedItems ExpandedAssets SpecAssets.
From Verif Require Import BaseFacts SoundFacts CfbFacts FileSystemFacts ExpandedItemsFacts JsonFloatFacts ImageProps.

Local Notation eqp := (list_eq_dec N.eq_dec).

Lemma no_dot_after_last (s e : rstring) : after_last_dot s = Some e -> ~ In 46%N e.
Proof.
  revert e. induction s as [|c s IH]; [discriminate|]. intros e. cbn [after_last_dot].
  destruct (after_last_dot s) as [r|] eqn:E; [intros [= <-]; apply IH; reflexivity|].
  destruct (c =? dot)%N; [|discriminate]. intros [= <-]. clear IH. intros K. induction s as [|d s IH]; [exact K|].
  cbn [after_last_dot] in E. destruct (after_last_dot s); [discriminate|].
  destruct (d =? dot)%N eqn:D; [discriminate|]. destruct K as [K|K]; [|apply IH; [reflexivity|exact K]].
  subst d. discriminate D.
Qed.
Lemma none_no_dot (s : rstring) : after_last_dot s = None -> ~ In 46%N s.
Proof.
  induction s as [|d s IH]; [intros _ []|]. cbn [after_last_dot]. destruct (after_last_dot s); [discriminate|].
  destruct (d =? dot)%N eqn:D; [discriminate|]. intros _ [K|K]; [subst d; discriminate D|apply IH; [reflexivity|exact K]].
Qed.
Lemma path_ext_no_dot p : ~ In 46%N (path_ext p).
Proof.
  unfold path_ext. destruct (after_last_dot p) as [e|] eqn:E; [exact (no_dot_after_last _ _ E)|exact (none_no_dot _ E)].
Qed.
Lemma sound_ext_no_dot s : ~ In 46%N (SoundData_ext s).
Proof.
  unfold SoundData_ext, str_path_ext, path_extension.
  assert (W : ~ In 46%N (lit "wav")) by (cbn; intros H; repeat (destruct H as [H|H]; [discriminate H|]); exact H).
  destruct (path_file_name (so_path s)) as [w|]; [|exact W].
  destruct (after_last_dot w) as [e|] eqn:E; [|exact W]. destruct (zlen w =? zlen e + 1); [exact W|].
  apply no_dot_after_last in E. destruct e; [exact W|exact E].
Qed.

Lemma eqb_false_neq (a b : rstring) : rstring_eqb a b = false -> a <> b.
Proof. intros H E. apply (proj2 (rstring_eqb_eq _ _)) in E. exact (eq_true_false_abs _ E H). Qed.

(** ** Names *)
Lemma digits_after_p (a b d e : rstring) : Forall (fun c => (48 <= c <= 57)%N) d -> Forall (fun c => (48 <= c <= 57)%N) e ->
  a ++ [112%N] ++ d = b ++ [112%N] ++ e -> d = e.
Proof.
  intros Hd He E. apply (f_equal (@rev _)) in E. rewrite !rev_app_distr in E. cbn [rev app] in E. rewrite <- !app_assoc in E. cbn [app] in E.
  assert (G : forall x y u v : rstring, Forall (fun c => (48 <= c <= 57)%N) x -> Forall (fun c => (48 <= c <= 57)%N) y ->
    x ++ 112%N :: u = y ++ 112%N :: v -> x = y).
  { intros x. induction x as [|c x IH]; intros y u v Hx Hy H; destruct y as [|c' y]; cbn [app] in H.
    - reflexivity.
    - injection H as E1 _. inversion Hy; subst. lia.
    - injection H as E1 _. inversion Hx; subst. lia.
    - injection H as -> H. inversion Hx; inversion Hy; subst. rewrite (IH y u v); auto. }
  apply G in E; [|apply Forall_rev, Hd|apply Forall_rev, He].
  apply (f_equal (@rev _)) in E. rewrite !rev_involutive in E. exact E.
Qed.
Section Names.
Variables (sanitize lower : rstring -> rstring).
Hypothesis Hd : keeps_dedup lower.

Lemma dedups_length names : forall used count, List.length (name_dedups sanitize lower used count names) = List.length names.
Proof.
  induction names as [|n names IH]; intros used count; [reflexivity|]. cbn [name_dedups].
  destruct (name_dedup_of sanitize lower used count n). cbn [List.length]. rewrite IH. reflexivity.
Qed.

Definition actual_names (ds : list (option rstring)) (names : list rstring) : list rstring :=
  map (fun e => or_else (fst e) (snd e)) (combine ds names).

Lemma dedup_number s t j k : lower (s ++ lit "_dedup" ++ dec_text j) = lower (t ++ lit "_dedup" ++ dec_text k) -> j = k.
Proof.
  destruct (Hd s) as (p & ->). destruct (Hd t) as (q & ->). intros E.
  apply dec_text_inj. change (lit "_dedup") with (lit "_dedu" ++ [112%N]) in E. rewrite <- !app_assoc in E.
  rewrite (app_assoc p), (app_assoc q) in E. apply digits_after_p in E; [exact E|apply dec_text_digits|apply dec_text_digits].
Qed.

(** the names used for files differ, even in lower case *)
Lemma actual_names_distinct names : Forall (ordinary_name sanitize lower) names -> forall used count,
  NoDup (map lower (actual_names (name_dedups sanitize lower used count names) names)) /\
  Forall (fun a => (~ In (lower a) used /\ forall p k, lower a <> p ++ lit "_dedup" ++ dec_text k) \/
                   exists s k, (count < k)%N /\ a = s ++ lit "_dedup" ++ dec_text k)
         (actual_names (name_dedups sanitize lower used count names) names).
Proof.
  induction 1 as [|n names [Sn On] H IH]; intros used count; [split; constructor|].
  cbn [name_dedups]. unfold name_dedup_of. rewrite Sn, (rstring_eqb_refl n).
  destruct (contains used (lower n)) eqn:U.
  - cbn [actual_names combine map or_else fst snd]. destruct (IH (lower n :: used) (count + 1)%N) as (ND & F).
    set (acts := actual_names (name_dedups sanitize lower (lower n :: used) (count + 1) names) names) in *. fold (actual_names (name_dedups sanitize lower (lower n :: used) (count + 1) names) names). fold acts. split.
    + constructor; [|exact ND]. intros K. apply in_map_iff in K. destruct K as (a & E & Ha).
      destruct (proj1 (Forall_forall _ _) F a Ha) as [[_ Q]|(s & k & L & ->)].
      * destruct (Hd n) as (p & Ep). rewrite Ep in E. exact (Q _ _ E).
      * apply dedup_number in E. lia.
    + constructor; [right; exists n, (count + 1)%N; split; [lia|reflexivity]|]. apply Forall_forall. intros a Ha.
      destruct (proj1 (Forall_forall _ _) F a Ha) as [[Q1 Q2]|(s & k & L & ->)]; [left; split; [|exact Q2]|right; exists s, k; split; [lia|reflexivity]].
      intros K. apply Q1. right. exact K.
  - cbn [actual_names combine map or_else fst snd]. destruct (IH (lower n :: used) count) as (ND & F).
    set (acts := actual_names (name_dedups sanitize lower (lower n :: used) count names) names) in *. fold (actual_names (name_dedups sanitize lower (lower n :: used) count names) names). fold acts. split.
    + constructor; [|exact ND]. intros K. apply in_map_iff in K. destruct K as (a & E & Ha).
      destruct (proj1 (Forall_forall _ _) F a Ha) as [[Q _]|(s & k & L & ->)]; [apply Q; left; symmetry; exact E|].
      destruct (Hd s) as (p & Ep). rewrite Ep in E. symmetry in E. exact (On _ _ E).
    + constructor; [left; split; [|exact On]|].
      * intros K. apply (proj2 (contains_iff _ _)) in K. exact (eq_true_false_abs _ K U).
      * apply Forall_forall. intros a Ha. destruct (proj1 (Forall_forall _ _) F a Ha) as [[Q1 Q2]|Q]; [left; split; [|exact Q2]|right; exact Q].
        intros K. apply Q1. right. exact K.
Qed.
End Names.

Section Store.
Variable key : rstring -> rstring.
Lemma exists_in_false dir name : exists_in key dir name = false -> hget (key name) dir = None.
Proof. unfold exists_in. destruct (hget (key name) dir); [discriminate|reflexivity]. Qed.
Lemma store_keeps dir name d k x : exists_in key dir name = false -> hget k dir = Some x -> hget k (store key name d dir) = Some x.
Proof.
  intros E H. unfold store. rewrite hget_insert. destruct (eqp (key name) k) as [<-|_]; [|exact H].
  apply exists_in_false in E. rewrite E in H. discriminate.
Qed.
Lemma store_gets dir name d : hget (key name) (store key name d dir) = Some d.
Proof. unfold store. rewrite hget_insert. destruct (eqp (key name) (key name)) as [_|N]; [reflexivity|destruct (N eq_refl)]. Qed.
End Store.

Lemma try_map_ok {A B} (f : A -> res B) (l : list A) (g : list B) :
  Forall2 (fun a b => f a = Ok b) l g -> try_map f l = Ok g.
Proof. induction 1 as [|a b l g H _ IH]; [reflexivity|]. cbn [try_map]. rewrite H, IH. reflexivity. Qed.

(** ** Sounds *)
Section Sounds.
Variables (sanitize lower key : rstring -> rstring) (checked : bool).
Lemma sound_files_there l : forall dir dir', write_sound_files key checked l dir = Ok dir' ->
  (forall k x, hget k dir = Some x -> hget k dir' = Some x) /\
  Forall (fun e => exists d, write_sound checked (snd e) = Ok d /\
    hget (key (asset_file_name (sj_name_dedup (fst e)) (so_name (snd e)) (SoundData_ext (snd e)))) dir' = Some d) l.
Proof.
  induction l as [|[j s] l IH]; intros dir dir' H; cbn [write_sound_files] in H.
  - injection H as <-. split; [auto|constructor].
  - destruct (exists_in key dir _) eqn:X; [discriminate|]. destruct (write_sound checked s) as [d|] eqn:W; [|discriminate]. cbn [rbind] in H.
    destruct (IH _ _ H) as (K & F). split.
    + intros k x Hx. apply K. apply store_keeps; assumption.
    + constructor; [|exact F]. exists d. split; [exact W|]. apply K, store_gets.
Qed.

Lemma indexed_sounds_fst sounds : map snd (indexed_sounds sanitize lower sounds) = sounds /\
  Forall (fun e => fst e = set_sj_name_dedup (sj_name_dedup (fst e)) (SoundDataJson_of (snd e))) (indexed_sounds sanitize lower sounds).
Proof.
  unfold indexed_sounds. pose proof (dedups_length sanitize lower (map so_name sounds) [] 0) as L. rewrite map_length in L.
  revert L. generalize (name_dedups sanitize lower [] 0 (map so_name sounds)). intros ds. revert sounds.
  induction ds as [|d ds IH]; intros [|s sounds] L; try discriminate L; [split; [reflexivity|constructor]|].
  injection L as L. destruct (IH sounds L) as (E & F). cbn [combine map fst snd]. split; [f_equal; exact E|]. constructor; [reflexivity|exact F].
Qed.

Lemma sounds_read_back sounds dir index dir' : write_sounds sanitize lower key checked sounds dir = Ok (index, dir') ->
  Forall extractable_sound sounds ->
  (forall s file, In s sounds -> write_sound checked s = Ok file -> read_sound file (SoundDataJson_to (SoundDataJson_of s)) = Ok s) ->
  read_sounds key (Some index) dir' = Ok sounds.
Proof.
  unfold write_sounds. intros H X Rs. destruct (write_sound_files _ _ _ dir) as [dr|] eqn:W; [|discriminate]. cbn [rbind] in H. injection H as <- ->.
  destruct (sound_files_there _ _ _ W) as (_ & F). destruct (indexed_sounds_fst sounds) as (E & G).
  unfold read_sounds. apply try_map_ok. rewrite <- E in X, Rs. rewrite <- E at 2. clear E W.
  induction (indexed_sounds sanitize lower sounds) as [|[j s] l IH]; [constructor|]. cbn [map fst snd] in *.
  inversion F as [|? ? (d & Wd & Gd) F']; subst. inversion G as [|? ? J G']; subst. inversion X; subst. cbn [fst snd] in *.
  constructor.
  - remember (sj_name_dedup j) as nd eqn:End. clear End. unfold read_one_sound. rewrite J. cbv zeta.
    change (SoundDataJson_to (set_sj_name_dedup nd (SoundDataJson_of s))) with (SoundDataJson_to (SoundDataJson_of s)).
    change (sj_name_dedup (set_sj_name_dedup nd (SoundDataJson_of s))) with nd.
    change (so_name (SoundDataJson_to (SoundDataJson_of s))) with (so_name s).
    change (SoundData_ext (SoundDataJson_to (SoundDataJson_of s))) with (SoundData_ext s). rewrite Gd.
    apply (Rs s); [left; reflexivity|exact Wd].
  - apply IH; try assumption. intros s' file Hs. apply Rs. right. exact Hs.
Qed.

Lemma sounds_written sounds : keeps_dedup lower -> tells_apart key lower -> Forall (ordinary_name sanitize lower) (map so_name sounds) ->
  (forall s, In s sounds -> exists d, write_sound checked s = Ok d) ->
  exists index dir', write_sounds sanitize lower key checked sounds [] = Ok (index, dir').
Proof.
  intros Hd Hk Ho Hw. unfold write_sounds.
  cut (exists dir', write_sound_files key checked (indexed_sounds sanitize lower sounds) [] = Ok dir').
  { intros (d & ->). cbn [rbind]. eauto. }
  destruct (actual_names_distinct sanitize lower Hd _ Ho [] 0) as (ND & _). unfold indexed_sounds.
  pose proof (dedups_length sanitize lower (map so_name sounds) [] 0) as L. rewrite map_length in L. revert ND L.
  generalize (name_dedups sanitize lower [] 0 (map so_name sounds)). intros ds ND L.
  assert (P : forall k x, hget k (@nil (rstring * bytes)) = Some x -> exists a e, ~ In 46%N e /\ k = key (a ++ lit "." ++ e) /\ ~ In (lower a) (map lower (actual_names ds (map so_name sounds)))) by discriminate.
  revert P. generalize (@nil (rstring * bytes)). clear Ho. revert sounds L ND Hw.
  induction ds as [|d ds IH]; intros [|s sounds] L ND Hw dir P; try discriminate L; [exists dir; reflexivity|].
  cbn [combine map fst snd write_sound_files]. cbn [map actual_names combine fst snd] in ND. inversion ND as [|? ? Ni ND']; subst.
  set (name := asset_file_name (sj_name_dedup (set_sj_name_dedup d (SoundDataJson_of s))) (so_name s) (SoundData_ext s)).
  assert (X : exists_in key dir name = false).
  { unfold exists_in. destruct (hget (key name) dir) as [x|] eqn:G; [|reflexivity]. exfalso.
    destruct (P _ _ G) as (a & e & He & Ek & Na). apply Hk in Ek; [|apply sound_ext_no_dot|exact He]. apply Na. left.
    cbn [fst snd]. rewrite <- Ek. reflexivity. }
  rewrite X. destruct (Hw s (or_introl eq_refl)) as (x & ->). cbn [rbind]. apply IH.
  - injection L as L. exact L.
  - exact ND'.
  - intros s' Hs. apply Hw. right. exact Hs.
  - intros k y. unfold store. rewrite hget_insert. destruct (eqp (key name) k) as [<-|_].
    + intros _. exists (or_else d (so_name s)), (SoundData_ext s). split; [apply sound_ext_no_dot|]. split; [reflexivity|exact Ni].
    + intros Hy. destruct (P _ _ Hy) as (a & e & He & Ek & Na). exists a, e. split; [exact He|]. split; [exact Ek|]. intros K. apply Na. right. exact K.
Qed.
End Sounds.

(** ** Images *)
Section Images.
Variables (sanitize lower key : rstring -> rstring) (dimensions : rstring -> bytes -> option (u32 * u32)).
Variables (lzw_encode lzw_decode : bytes -> res bytes) (bmp_encode : dyn_image -> res bytes) (load_from_memory : bytes -> res dyn_image).
Notation write_files := (write_image_files key lzw_decode bmp_encode).
Notation indexed := (indexed_images sanitize lower dimensions).
Notation same := (same_image lzw_decode).
Notation extractable := (extractable_image lzw_encode lzw_decode bmp_encode load_from_memory).

(** the contents of the file of an image that is no link *)
Definition picture_file (v : ImageData) : res bytes :=
  match im_jpeg v with
  | Some p => Ok (ij_data p)
  | None => match im_bits v with
            | Some b => if eq_ignore_ascii_case (ImageData_ext v) (lit "bmp")
                        then write_image_bmp lzw_decode bmp_encode b (w32_to_Z (im_width v)) (w32_to_Z (im_height v)) else Panic
            | None => Err
            end
  end.
Lemma write_files_cons j v l dir : write_files ((j, v) :: l) dir =
  let name := asset_file_name (aj_name_dedup j) (im_name v) (ImageData_ext v) in
  if exists_in key dir name then Err
  else if ImageData_is_link v then write_files l dir
  else d <~ picture_file v ;; write_files l (store key name d dir).
Proof.
  cbn [write_image_files]. cbv zeta. destruct (exists_in key dir _); [reflexivity|]. destruct (ImageData_is_link v); [reflexivity|].
  unfold picture_file. destruct (im_jpeg v); [reflexivity|]. destruct (im_bits v); [|reflexivity]. destruct (eq_ignore_ascii_case _ _); reflexivity.
Qed.

Lemma image_files_there l : forall dir dir', write_files l dir = Ok dir' ->
  (forall k x, hget k dir = Some x -> hget k dir' = Some x) /\
  Forall (fun e => ImageData_is_link (snd e) = false -> exists d, picture_file (snd e) = Ok d /\
    hget (key (asset_file_name (aj_name_dedup (fst e)) (im_name (snd e)) (ImageData_ext (snd e)))) dir' = Some d) l.
Proof.
  induction l as [|[j v] l IH]; intros dir dir' H; [|rewrite write_files_cons in H; cbv zeta in H].
  - injection H as <-. split; [auto|constructor].
  - destruct (exists_in key dir _) eqn:X; [discriminate|]. destruct (ImageData_is_link v) eqn:Lk.
    + destruct (IH _ _ H) as (K & F). split; [exact K|]. constructor; [|exact F]. cbn [snd]. intros E. congruence.
    + destruct (picture_file v) as [d|] eqn:W; [|discriminate]. cbn [rbind] in H.
      destruct (IH _ _ H) as (K & F). split.
      * intros k x Hx. apply K. apply store_keeps; assumption.
      * constructor; [|exact F]. intros _. exists d. split; [exact W|]. apply K, store_gets.
Qed.

Lemma indexed_images_fst images : map snd (indexed images) = images /\
  Forall (fun e => fst e = index_image dimensions (aj_name_dedup (fst e)) (snd e)) (indexed images).
Proof.
  unfold indexed_images. pose proof (dedups_length sanitize lower (map im_name images) [] 0) as L. rewrite map_length in L.
  revert L. generalize (name_dedups sanitize lower [] 0 (map im_name images)). intros ds. revert images.
  induction ds as [|d ds IH]; intros [|s images] L; try discriminate L; [split; [reflexivity|constructor]|].
  injection L as L. destruct (IH images L) as (E & F). cbn [combine map fst snd]. split; [f_equal; exact E|]. constructor; [|exact F].
  cbn [fst snd]. f_equal. unfold index_image. destruct (stored_size _ _ _). reflexivity.
Qed.

Lemma or_else_unless (x y : rstring) : or_else (unless_equal x y) y = x.
Proof. unfold unless_equal. destruct (rstring_eqb x y) eqn:E; [apply rstring_eqb_eq in E; symmetry; exact E|reflexivity]. Qed.
Lemma alpha_kept (a : f32) : or_else (if w32_eqb a ALPHA_TEST_VALUE_DEFAULT then None else Some a) ALPHA_TEST_VALUE_DEFAULT = a.
Proof. destruct (w32_eqb a _) eqn:E; [apply w32_eqb_eq in E; symmetry; exact E|reflexivity]. Qed.
Lemma md5_kept (h : option bytes) : match h with Some h => zlen h = 16 | None => True end ->
  match match h with Some h => Some (hex_encode h) | None => None end with
  | Some t => match hex_decode t with Ok d => if zlen d =? 16 then Some d else None | Fail _ => None end
  | None => None
  end = h.
Proof. destruct h as [h|]; [|reflexivity]. intros L. rewrite decode_hex, L. reflexivity. Qed.

Lemma is_link_iff v : ImageData_is_link v = true <-> im_link v = Some (Z_to_w32 1).
Proof.
  unfold ImageData_is_link. destruct (im_link v) as [l|]; [|split; discriminate]. rewrite w32_eqb_eq. split; [intros ->; reflexivity|intros [= ->]; reflexivity].
Qed.
Lemma bmp_iff p : eq_ignore_ascii_case (path_ext p) (lit "bmp") = true <-> extension_is p (lit "bmp").
Proof. unfold eq_ignore_ascii_case, extension_is. rewrite rstring_eqb_eq. reflexivity. Qed.

(** the entry of an image, with any size, gives the image but for the picture *)
Lemma entry_restored v d w h bits : match im_md5_hash v with Some h => zlen h = 16 | None => True end ->
  forall j, j = index_image dimensions d v ->
  ImageDataJson_to j w h bits =
  mkImageData (im_name v) (im_internal_name v) (im_path v) w h (im_link v) (im_alpha_test_value v) (im_is_opaque v) (im_is_signed v)
    (if negb (eq_ignore_ascii_case (ImageData_ext v) (lit "bmp")) && negb (ImageData_is_link v)
     then Some match im_jpeg v with
               | Some p => mkImageDataJpeg (ij_path p) (ij_name p) (ij_internal_name p) []
               | None => mkImageDataJpeg (im_path v) (im_name v) None []
               end
     else None) bits (im_md5_hash v).
Proof.
  intros M j ->. unfold index_image. destruct (stored_size dimensions _ v) as [w' h'].
  unfold ImageDataJson_to, ImageDataJson_of, aj_is_bmp, aj_ext, aj_is_link, ImageData_ext, ImageData_is_link.
  destruct (im_jpeg v) as [p|] eqn:J;
    cbn [set_aj_size set_aj_name_dedup aj_name aj_internal_name aj_path aj_width aj_height aj_link aj_alpha_test_value aj_is_opaque
         aj_is_signed aj_jpeg_name aj_jpeg_internal_name aj_jpeg_path aj_name_dedup aj_md5_hash];
    rewrite alpha_kept, md5_kept, ?or_else_unless by exact M; reflexivity.
Qed.
Lemma index_facts v d : let j := index_image dimensions d v in
  aj_name_dedup j = d /\ aj_name j = im_name v /\ aj_ext j = ImageData_ext v /\ aj_is_link j = ImageData_is_link v /\
  aj_is_bmp j = eq_ignore_ascii_case (ImageData_ext v) (lit "bmp") /\
  (aj_width j, aj_height j) = stored_size dimensions (asset_file_name d (im_name v) (ImageData_ext v)) v.
Proof.
  cbv zeta. unfold index_image. destruct (stored_size dimensions _ v) as [w' h']. unfold aj_is_bmp, aj_ext, aj_is_link, ImageData_ext, ImageData_is_link, ImageDataJson_of.
  destruct (im_jpeg v); repeat split.
Qed.

Lemma read_one_ok checked dir d v : extractable v ->
  (ImageData_is_link v = false -> exists x, picture_file v = Ok x /\ hget (key (asset_file_name d (im_name v) (ImageData_ext v))) dir = Some x) ->
  exists got, read_one_image key dimensions lzw_encode load_from_memory checked dir (index_image dimensions d v) = Ok got /\ same v got.
Proof.
  intros (M & HL & HN) HF. pose proof (index_facts v d) as IF. cbv zeta in IF. remember (index_image dimensions d v) as j eqn:Ej.
  destruct IF as (Ed & En & Ee & El & Eb & Es). unfold read_one_image. rewrite El, Ed, En, Ee, Eb.
  destruct (ImageData_is_link v) eqn:Lk.
  - apply is_link_iff in Lk. destruct (HL Lk) as [HJ HB]. unfold stored_size in Es. rewrite Lk in Es. injection Es as -> ->. cbn [or_else].
    eexists. split; [reflexivity|]. rewrite (entry_restored v d _ _ _ M j Ej). replace (ImageData_is_link v) with true by (symmetry; apply is_link_iff, Lk).
    rewrite andb_false_r. split; [|left; exact HB]. destruct v; cbn in *. subst. reflexivity.
  - destruct (HF eq_refl) as (x & Px & Gx). assert (NL : im_link v <> Some (Z_to_w32 1)) by (intros K; apply is_link_iff in K; congruence).
    destruct (HN NL) as [HB HJ]. cbv zeta.
    assert (X : exists_in key dir (asset_file_name d (im_name v) (ImageData_ext v)) = true) by (unfold exists_in; rewrite Gx; reflexivity).
    rewrite X. cbn [negb]. rewrite andb_false_r. cbn [andb]. rewrite Gx.
    destruct (eq_ignore_ascii_case (ImageData_ext v) (lit "bmp")) eqn:B.
    + pose proof (proj1 (bmp_iff _) B) as B'. destruct (HB B') as (J & b & Hb & (px & Lp & Dp & Rp & Cp)).
      pose proof (w32_to_Z_range (im_width v)). pose proof (w32_to_Z_range (im_height v)).
      destruct (bitmap_export_import lzw_encode lzw_decode bmp_encode load_from_memory checked b px (w32_to_Z (im_width v)) (w32_to_Z (im_height v)))
        as (file & b' & W & Rd & D'); try assumption; try lia.
      unfold picture_file in Px. rewrite J, Hb, B, W in Px. injection Px as <-. rewrite Rd. cbn [rbind]. rewrite !Z_to_w32_to_Z.
      eexists. split; [reflexivity|]. rewrite (entry_restored v d _ _ _ M j Ej). rewrite B. cbn [negb andb]. split.
      * destruct v; cbn in *. subst. reflexivity.
      * right. exists b, b', px. auto.
    + assert (NB : ~ extension_is (im_path v) (lit "bmp")) by (intros K; apply bmp_iff in K; unfold ImageData_ext in B; congruence).
      destruct (HJ NB) as [Jn Bn]. destruct (im_jpeg v) as [p|] eqn:J; [|congruence].
      unfold picture_file in Px. rewrite J in Px. injection Px as <-.
      assert (S : match aj_width j with Some w => Some w | None => option_map fst (dimensions (asset_file_name d (im_name v) (ImageData_ext v)) (ij_data p)) end = Some (im_width v) /\
                  match aj_height j with Some h => Some h | None => option_map snd (dimensions (asset_file_name d (im_name v) (ImageData_ext v)) (ij_data p)) end = Some (im_height v)).
      { unfold stored_size in Es. rewrite J in Es. destruct (im_link v); [injection Es as -> ->; auto|].
        destruct (dimensions _ (ij_data p)) as [[w h]|]; [|injection Es as -> ->; auto].
        injection Es as -> ->. destruct (w32_eqb (im_width v) w) eqn:E1; [apply w32_eqb_eq in E1; subst w|];
          (destruct (w32_eqb (im_height v) h) eqn:E2; [apply w32_eqb_eq in E2; subst h|]); auto. }
      destruct S as [-> ->]. eexists. split; [reflexivity|]. rewrite (entry_restored v d _ _ _ M j Ej). rewrite B, Lk, J. cbn [negb andb].
      cbn [im_jpeg set_im_jpeg ij_path ij_name ij_internal_name]. split; [|left; rewrite Bn; reflexivity].
      destruct v; cbn in *. subst. destruct p; reflexivity.
Qed.

Lemma images_read_back checked images dir index dir' :
  write_images sanitize lower key dimensions lzw_decode bmp_encode images dir = Ok (index, dir') ->
  Forall extractable images ->
  exists got, read_images key dimensions lzw_encode load_from_memory checked (Some index) dir' = Ok got /\ Forall2 same images got.
Proof.
  unfold write_images. intros H X. destruct (write_files _ dir) as [dr|] eqn:W; [|discriminate]. cbn [rbind] in H. injection H as <- ->.
  destruct (image_files_there _ _ _ W) as (_ & F). destruct (indexed_images_fst images) as (E & G).
  unfold read_images. clear W. remember (indexed images) as l eqn:El. clear El. subst images.
  induction l as [|[j v] l IH]; [exists []; split; [reflexivity|constructor]|]. cbn [map fst snd] in *.
  inversion F as [|? ? Fh F']; subst. inversion G as [|? ? J G']; subst. inversion X; subst. cbn [fst snd] in *.
  destruct IH as (got & Eg & Fg); try assumption.
  remember (aj_name_dedup j) as nd eqn:End. clear End. subst j.
  destruct (read_one_ok checked dir' nd v) as (g & Rg & Sg); try assumption.
  exists (g :: got). cbn [try_map]. rewrite Rg, Eg. split; [reflexivity|constructor; assumption].
Qed.

Lemma images_written images : keeps_dedup lower -> tells_apart key lower -> Forall (ordinary_name sanitize lower) (map im_name images) ->
  Forall extractable images ->
  exists index dir', write_images sanitize lower key dimensions lzw_decode bmp_encode images [] = Ok (index, dir').
Proof.
  intros Hd Hk Ho Hx. unfold write_images.
  cut (exists dir', write_files (indexed images) [] = Ok dir').
  { intros (d & ->). cbn [rbind]. eauto. }
  destruct (actual_names_distinct sanitize lower Hd _ Ho [] 0) as (ND & _). unfold indexed_images.
  pose proof (dedups_length sanitize lower (map im_name images) [] 0) as L. rewrite map_length in L. revert ND L.
  generalize (name_dedups sanitize lower [] 0 (map im_name images)). intros ds ND L.
  assert (P : forall k x, hget k (@nil (rstring * bytes)) = Some x -> exists a e, ~ In 46%N e /\ k = key (a ++ lit "." ++ e) /\ ~ In (lower a) (map lower (actual_names ds (map im_name images)))) by discriminate.
  revert P. generalize (@nil (rstring * bytes)). clear Ho. revert images L ND Hx.
  induction ds as [|d ds IH]; intros [|v images] L ND Hx dir P; try discriminate L; [exists dir; reflexivity|].
  cbn [combine map fst snd]. rewrite write_files_cons. cbn [map actual_names combine fst snd] in ND. inversion ND as [|? ? Ni ND']; subst.
  cbv zeta. rewrite (proj1 (index_facts v d)).
  set (name := asset_file_name d (im_name v) (ImageData_ext v)).
  assert (X : exists_in key dir name = false).
  { unfold exists_in. destruct (hget (key name) dir) as [x|] eqn:G; [|reflexivity]. exfalso.
    destruct (P _ _ G) as (a & e & He & Ek & Na). apply Hk in Ek; [|apply path_ext_no_dot|exact He]. apply Na. left.
    cbn [fst snd]. rewrite <- Ek. reflexivity. }
  rewrite X. inversion Hx as [|? ? (M & HL & HN) Hx']; subst. injection L as L.
  destruct (ImageData_is_link v) eqn:Lk.
  - apply IH; try assumption. intros k y Hy. destruct (P _ _ Hy) as (a & e & He & Ek & Na). exists a, e. split; [exact He|]. split; [exact Ek|]. intros K. apply Na. right. exact K.
  - assert (Q : exists x, picture_file v = Ok x).
    { assert (NL : im_link v <> Some (Z_to_w32 1)) by (intros K; apply is_link_iff in K; congruence).
      destruct (HN NL) as [HB HJ]. unfold picture_file. destruct (eq_ignore_ascii_case (ImageData_ext v) (lit "bmp")) eqn:B.
      - destruct (HB (proj1 (bmp_iff _) B)) as (J & b & Hb & (px & Lp & Dp & Rp & Cp)). rewrite J, Hb.
        pose proof (w32_to_Z_range (im_width v)). pose proof (w32_to_Z_range (im_height v)).
        destruct (bitmap_export_import lzw_encode lzw_decode bmp_encode load_from_memory false b px (w32_to_Z (im_width v)) (w32_to_Z (im_height v)))
          as (file & b' & W & _); try assumption; try lia. exists file. exact W.
      - assert (NB : ~ extension_is (im_path v) (lit "bmp")) by (intros K; apply bmp_iff in K; unfold ImageData_ext in B; congruence).
        destruct (HJ NB) as [Jn Bn]. destruct (im_jpeg v) as [p|]; [eauto|congruence]. }
    destruct Q as (x & ->). cbn [rbind]. apply IH; try assumption.
    intros k y. unfold store. rewrite hget_insert. destruct (eqp (key name) k) as [<-|_].
    + intros _. exists (or_else d (im_name v)), (ImageData_ext v). split; [apply path_ext_no_dot|]. split; [reflexivity|exact Ni].
    + intros Hy. destruct (P _ _ Hy) as (a & e & He & Ek & Na). exists a, e. split; [exact He|]. split; [exact Ek|]. intros K. apply Na. right. exact K.
Qed.
End Images.

(** ** Fonts *)
Section Fonts.
Variables (sanitize key : rstring -> rstring).
Lemma fonts_kept l : forall dir k, ~ In k (map (fun f => key (font_file_name sanitize f)) l) ->
  hget k (fold_left (fun d f => store key (font_file_name sanitize f) (fo_data f) d) l dir) = hget k dir.
Proof.
  induction l as [|f l IH]; intros dir k N; [reflexivity|]. cbn [fold_left]. rewrite IH by (intros K; apply N; right; exact K).
  unfold store. rewrite hget_insert. destruct (eqp (key (font_file_name sanitize f)) k) as [E|_]; [|reflexivity]. exfalso. apply N. left. exact E.
Qed.
Lemma fonts_read_back fonts dir : NoDup (map (fun f => key (font_file_name sanitize f)) fonts) ->
  let '(index, dir') := write_fonts sanitize key fonts dir in read_fonts sanitize key (Some index) dir' = Ok fonts.
Proof.
  intros ND. unfold write_fonts, read_fonts. apply try_map_ok. revert dir ND.
  induction fonts as [|f fonts IH]; intros dir ND; [constructor|]. cbn [map fold_left] in *. inversion ND as [|? ? N ND']; subst.
  constructor; [|apply IH, ND']. unfold read_one_font. change (font_file_name sanitize (FontDataJson_to (FontDataJson_of f))) with (font_file_name sanitize f).
  rewrite fonts_kept by exact N. rewrite store_gets. destruct f; reflexivity.
Qed.
End Fonts.

(** ** One file per entry *)
Lemma hinsert_new p d (m : files) : hget p m = None -> List.length (hinsert p d m) = S (List.length m).
Proof.
  induction m as [|[q e] m IH]; [reflexivity|]. cbn [hget hinsert]. destruct (rstring_eqb p q); [discriminate|]. intros H. cbn [List.length]. rewrite IH by exact H. reflexivity.
Qed.
Lemma sound_files_count key checked l : forall dir dir', write_sound_files key checked l dir = Ok dir' ->
  List.length dir' = (List.length dir + List.length l)%nat.
Proof.
  induction l as [|[j s] l IH]; intros dir dir' H; cbn [write_sound_files] in H; [injection H as <-; cbn; lia|].
  destruct (exists_in key dir _) eqn:X; [discriminate|]. destruct (write_sound checked s) as [d|]; [|discriminate]. cbn [rbind] in H.
  rewrite (IH _ _ H). unfold store. rewrite hinsert_new by (apply exists_in_false, X). cbn [List.length]. lia.
Qed.
Lemma image_files_count key lzw_decode bmp_encode l : forall dir dir', write_image_files key lzw_decode bmp_encode l dir = Ok dir' ->
  List.length dir' = (List.length dir + List.length (filter (fun v => negb (ImageData_is_link v)) (map snd l)))%nat.
Proof.
  induction l as [|[j v] l IH]; intros dir dir' H; [injection H as <-; cbn; lia|].
  rewrite write_files_cons in H. cbv zeta in H. cbn [map snd filter].
  destruct (exists_in key dir _) eqn:X; [discriminate|]. destruct (ImageData_is_link v); cbn [negb]; [exact (IH _ _ H)|].
  destruct (picture_file _ _ v) as [d|]; [|discriminate]. cbn [rbind] in H.
  rewrite (IH _ _ H). unfold store. rewrite hinsert_new by (apply exists_in_false, X). cbn [List.length]. lia.
Qed.

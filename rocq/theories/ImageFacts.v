(** Facts about images. *)
From Verif Require Import Base Text Biff Quantize Common Enums ItemBase Structs Image.
From Verif Require Import BaseFacts TextFacts BiffFacts CommonFacts TermFacts QuantizeFacts EnumsFacts ItemBaseFacts.
From Verif Require Import StructBaseFacts StructsFacts.

(** ** Records whose reading depends on the records that follow *)
Section CSteps.
Context {S : Type} (h : string -> S -> rd_M S).
Inductive CSteps : S -> list rec -> S -> Prop :=
| CSteps_nil s : CSteps s [] s
| CSteps_cons t n p s s' rs s'' :
    rec_ok t n = true ->
    (forall pre tail w c, h t s (at_ pre (p ++ enc (rs ++ [endb]) ++ tail) n t w c)
                          = Ok (s', at_ (pre ++ p) (enc (rs ++ [endb]) ++ tail) 0 t w c)) ->
    CSteps s' rs s'' -> CSteps s (mkRec t n p :: rs) s''.

Lemma enc_endb_nonempty rs tail : enc (rs ++ [endb]) ++ tail <> [].
Proof.
  rewrite enc_app. intros E. apply (f_equal zlen) in E. revert E. rewrite !zlen_app. change (enc [endb]) with (hdr "ENDB" 0).
  assert (zlen (hdr "ENDB" 0) = 8) by reflexivity. change (zlen (@nil byte)) with 0.
  pose proof (zlen_nonneg (enc rs)). pose proof (zlen_nonneg tail). lia.
Qed.
Lemma Steps_CSteps s rs s' rs' s'' : Steps h s rs s' -> CSteps s' rs' s'' -> CSteps s (rs ++ rs') s''.
Proof.
  induction 1 as [s|t n p s s1 rs s2 Hr Hh HS IH]; intros HC; [exact HC|]. cbn [app].
  econstructor; [exact Hr| |apply IH, HC]. intros. apply Hh, enc_endb_nonempty.
Qed.
Lemma Steps_C s rs s' : Steps h s rs s' -> CSteps s rs s'.
Proof. intros H. rewrite <- (app_nil_r rs). eapply Steps_CSteps; [exact H|constructor]. Qed.

Lemma biff_loop_csteps s rs s' : CSteps s rs s' ->
  forall fuel pre tail t0 w c, (List.length rs < fuel)%nat -> (w = true -> tail = []) ->
  biff_loop fuel h s (at_ pre (enc (rs ++ [endb]) ++ tail) 0 t0 w c)
    = Ok (s', at_ (pre ++ enc (rs ++ [endb])) tail 0 "ENDB" w c).
Proof.
  induction 1 as [s|t n p s s1 rs s2 Hr Hh HS IH]; intros fuel pre tail t0 w c Hf Hw.
  - apply (biff_loop_steps h s [] s (Steps_nil h s)); assumption.
  - destruct fuel as [|fuel]; [cbn in Hf; lia|]. cbn [biff_loop].
    unfold rec_ok in Hr. apply andb_true_iff in Hr. destruct Hr as [Hr He].
    apply andb_true_iff in Hr. destruct Hr as [Ht Hn].
    cbn [app]. rewrite enc_cons. unfold enc_rec; cbn [rec_tag rec_n rec_p].
    rewrite <- !app_assoc.
    erewrite bindM_ok.
    2:{ apply next_at; [exact Ht|exact Hn|]. intros E.
        apply andb_true_iff in E. destruct E as [_ E]. rewrite E in He. discriminate. }
    replace (is_eof _) with false.
    2:{ unfold is_eof, at_. cbn [r_data r_pos r_tag].
        apply negb_true_iff in He. rewrite He, orb_false_r. rewrite !zlen_app, enc_app, zlen_app.
        change (enc [endb]) with (hdr "ENDB" 0).
        assert (zlen (hdr "ENDB" 0) = 8) by reflexivity.
        pose proof (zlen_nonneg p). pose proof (zlen_nonneg (enc rs)). pose proof (zlen_nonneg tail). lia. }
    erewrite bindM_ok by apply Hh.
    replace (pre ++ hdr t n ++ p ++ enc (rs ++ [endb])) with (((pre ++ hdr t n) ++ p) ++ enc (rs ++ [endb]))
      by (rewrite <- !app_assoc; reflexivity).
    apply IH; [cbn in Hf; lia|exact Hw].
Qed.
Lemma CSteps_tags s rs s' : CSteps s rs s' -> forall r, In r rs -> tag_ok (rec_tag r) = true.
Proof.
  induction 1 as [|t n p s s1 rs s2 Hr Hh HS IH]; intros r Hin; [destruct Hin|].
  destruct Hin as [<-|Hin]; [|apply IH, Hin]. cbn. unfold rec_ok in Hr.
  apply andb_true_iff in Hr. destruct Hr as [Hr _]. apply andb_true_iff in Hr. apply Hr.
Qed.
Lemma run_loop_csteps s rs s' pre tail t0 w c : CSteps s rs s' -> (w = true -> tail = []) ->
  run_loop h s (at_ pre (enc (rs ++ [endb]) ++ tail) 0 t0 w c)
    = Ok (s', at_ (pre ++ enc (rs ++ [endb])) tail 0 "ENDB" w c).
Proof.
  intros HS Hw. unfold run_loop. eapply biff_loop_csteps; [exact HS| |exact Hw].
  unfold loop_fuel, at_. cbn [r_data]. rewrite !zlen_app, enc_app, zlen_app.
  pose proof (enc_length rs (CSteps_tags _ _ _ HS)).
  pose proof (zlen_nonneg pre). pose proof (zlen_nonneg tail). pose proof (zlen_nonneg (enc [endb])).
  unfold zlen in *. lia.
Qed.
End CSteps.
Lemma loop_creads {S} (h : string -> S -> rd_M S) d rs s : CSteps h d rs s -> reads_as (run_loop h d) (enc (rs ++ [endb])) s.
Proof.
  intros H c. rewrite rd_new_at. rewrite <- (app_nil_r (enc (rs ++ [endb]))).
  eexists. apply run_loop_csteps; [exact H|reflexivity].
Qed.

(** ** Searching the marker *)
Definition occurs (tag d : bytes) : Prop := exists a b, d = a ++ tag ++ b.
Lemma combine_eqb_prefix (tag : bytes) : forall d, zlen tag <= zlen d ->
  forallb (fun '(a, b) => Byte.eqb a b) (combine d tag) = true <-> exists b, d = tag ++ b.
Proof.
  induction tag as [|x tag IH]; intros d Hd.
  - split; [intros _; exists d; reflexivity|]. intros _. destruct d; reflexivity.
  - destruct d as [|y d]; [rewrite zlen_cons in Hd; change (zlen (@nil byte)) with 0 in Hd; pose proof (zlen_nonneg tag); lia|].
    rewrite !zlen_cons in Hd. cbn [combine forallb]. rewrite andb_true_iff, IH by lia. split.
    + intros [E [b ->]]. exists b. apply Byte.byte_dec_bl in E. subst y. reflexivity.
    + intros [b E]. cbn [app] in E. injection E as -> ->. split; [apply Byte.byte_dec_lb; reflexivity|exists b; reflexivity].
Qed.
Lemma find_tag_spec tag d : tag <> [] ->
  match find_tag tag d with
  | Some i => (exists a b, d = a ++ tag ++ b /\ zlen a = i) /\ (forall a b, d = a ++ tag ++ b -> i <= zlen a)
  | None => ~ occurs tag d
  end.
Proof.
  intros Ht. assert (H0 : 0 < zlen tag). { destruct tag; [congruence|]. rewrite zlen_cons. pose proof (zlen_nonneg tag). lia. }
  induction d as [|x d IH].
  - cbn [find_tag]. intros (a & b & E). apply (f_equal zlen) in E. rewrite !zlen_app in E. change (zlen (@nil byte)) with 0 in E.
    pose proof (zlen_nonneg a). pose proof (zlen_nonneg b). lia.
  - cbn [find_tag]. destruct (zlen (x :: d) <? zlen tag) eqn:El.
    + intros (a & b & E). apply (f_equal zlen) in E. rewrite !zlen_app in E. pose proof (zlen_nonneg a). pose proof (zlen_nonneg b). lia.
    + destruct (forallb _ _) eqn:Ef.
      * apply combine_eqb_prefix in Ef; [|lia]. destruct Ef as [b Eb]. split.
        -- exists [], b. split; [exact Eb|reflexivity].
        -- intros a b' _. apply zlen_nonneg.
      * assert (HN : forall a b, x :: d = a ++ tag ++ b -> exists a', a = x :: a' /\ d = a' ++ tag ++ b).
        { intros a b E. destruct a as [|y a].
          - exfalso. assert (exists b, x :: d = tag ++ b) as X by (exists b; exact E). apply combine_eqb_prefix in X; [congruence|lia].
          - cbn [app] in E. injection E as -> ->. exists a. split; reflexivity. }
        destruct (find_tag tag d) as [i|] eqn:Ei; cbn [option_map].
        -- destruct IH as [(a & b & E & El') Hmin]. split.
           ++ exists (x :: a), b. split; [cbn; rewrite E at 1; reflexivity|rewrite zlen_cons; lia].
           ++ intros a' b' E'. destruct (HN _ _ E') as (a'' & -> & E''). specialize (Hmin _ _ E''). rewrite zlen_cons. lia.
        -- intros (a & b & E). destruct (HN _ _ E) as (a' & -> & E'). apply IH. exists a', b. exact E'.
Qed.
Lemma find_tag_none tag d : tag <> [] -> find_tag tag d = None <-> ~ occurs tag d.
Proof.
  intros Ht. pose proof (find_tag_spec tag d Ht) as H. destruct (find_tag tag d) as [i|].
  - split; [discriminate|]. intros HN. destruct H as [(a & b & E & _) _]. exfalso. apply HN. exists a, b. exact E.
  - split; auto.
Qed.
(** The marker follows a header without bytes of the marker. *)
Lemma find_tag_after tag d g rest : tag <> [] -> Forall (fun x => ~ In x tag) g -> zlen g = zlen tag -> ~ occurs tag d ->
  find_tag tag (d ++ g ++ tag ++ rest) = Some (zlen d + zlen g).
Proof.
  intros Ht Hg Hl Hd. pose proof (find_tag_spec tag (d ++ g ++ tag ++ rest) Ht) as H.
  assert (H0 : 0 < zlen tag). { destruct tag; [congruence|]. rewrite zlen_cons. pose proof (zlen_nonneg tag). lia. }
  destruct (find_tag tag _) as [i|].
  - destruct H as [(a & b & E & Ea) Hmin].
    assert (Hi : i <= zlen d + zlen g). { rewrite <- zlen_app. apply (Hmin _ rest). rewrite <- app_assoc. reflexivity. }
    destruct (Z.eq_dec i (zlen d + zlen g)) as [->|Hne]; [reflexivity|]. exfalso.
    destruct (Z_le_gt_dec (i + zlen tag) (zlen d)) as [Hin|Hout].
    + apply Hd. exists a, (firstn (Z.to_nat (zlen d - i - zlen tag)) b).
      assert (X : firstn (Z.to_nat (zlen d)) (d ++ g ++ tag ++ rest) = firstn (Z.to_nat (zlen d)) (a ++ tag ++ b)) by (rewrite E; reflexivity).
      rewrite firstn_zlen in X. etransitivity; [exact X|]. clear X E Hmin Hd. rewrite (firstn_app _ a), (firstn_all2 a) by (unfold zlen in *; lia). f_equal.
      rewrite (firstn_app _ tag), (firstn_all2 tag) by (unfold zlen in *; lia). f_equal. f_equal. unfold zlen in *. lia.
    + (* the byte at index max i (zlen d) belongs to both the header and the marker *)
      set (k := Z.to_nat (Z.max i (zlen d))).
      assert (X : nth_error (d ++ g ++ tag ++ rest) k = nth_error (a ++ tag ++ b) k) by (rewrite E; reflexivity).
      rewrite nth_error_app2 in X by (unfold k, zlen in *; lia).
      rewrite nth_error_app1 in X by (unfold k, zlen in *; lia).
      rewrite nth_error_app2 in X by (unfold k, zlen in *; lia).
      rewrite nth_error_app1 in X by (unfold k, zlen in *; lia).
      destruct (nth_error g (k - List.length d)) as [x|] eqn:Eg.
      * symmetry in X. apply nth_error_In in X. apply nth_error_In in Eg. rewrite Forall_forall in Hg. exact (Hg x Eg X).
      * apply nth_error_None in Eg. unfold k, zlen in *. lia.
  - exfalso. apply H. exists (d ++ g), rest. rewrite <- app_assoc. reflexivity.
Qed.

(** ** JPEG part *)
Definition Jpeg_ok (v : ImageDataJpeg) : bool :=
  str_ok (ij_name v) && opt_ok str_ok (ij_internal_name v) && str_ok (ij_path v) && data_ok (ij_data v).
Definition Jpeg_recs (v : ImageDataJpeg) : list rec :=
  R "NAME" (string_bytes (ij_name v)) :: orec (ij_internal_name v) (fun x => R "INME" (string_bytes x)) ++
  R "PATH" (string_bytes (ij_path v)) ::
  R "SIZE" (w32_bytes (Z_to_w32 (zlen (ij_data v)))) :: R "DATA" (ij_data v) :: [].
Definition Jpeg_bytes (v : ImageDataJpeg) : bytes := enc (Jpeg_recs v ++ [endb]).

Lemma Jpeg_steps v : Jpeg_ok v = true ->
  Steps (dispatch Jpeg_arms) Jpeg_init (Jpeg_recs v) (mkJpegState v (Some (Z_to_w32 (zlen (ij_data v))))).
Proof.
  intros H. unfold Jpeg_ok in H. split_ok H. unfold Jpeg_recs. srec. cbn [Jpeg_init js_jpeg js_size ij_path ij_name ij_internal_name ij_data].
  eapply (S_opt (fun o s => mkJpegState (mkImageDataJpeg (ij_path (js_jpeg s)) (ij_name (js_jpeg s)) o (ij_data (js_jpeg s))) (js_size s))
       (fun s => ij_internal_name (js_jpeg s)));
    [intros [[] ?]; reflexivity | reflexivity | reflexivity | intros; okhyp; sizeok | reflexivity | intros; okhyp; armh | cbv beta].
  cbn [js_jpeg js_size ij_path ij_name ij_internal_name ij_data]. srec. srec.
  cbn [js_jpeg js_size ij_path ij_name ij_internal_name ij_data].
  eapply S_rec; [reflexivity|apply size_ok_data; assumption|reflexivity| |].
  - intros pre rest t w c Hr. cbn [js_jpeg js_size ij_path ij_name ij_internal_name ij_data].
    unfold rbindM. rewrite get_data_at; [unfold rret; reflexivity|].
    unfold data_ok, fits in H0. pose proof (zlen_nonneg (ij_data v)). rewrite w32_to_Z_small; lia.
  - destruct v. constructor.
Qed.
Lemma Jpeg_write v : Jpeg_ok v = true -> write_jpg v = Ok (Jpeg_bytes v).
Proof.
  intros H. unfold Jpeg_ok in H. split_ok H. apply run_wapp; [|unfold Jpeg_write_m; closes].
  unfold Jpeg_write_m, Jpeg_bytes, Jpeg_recs. recs_norm.
  wrec. woptrec. wrec. unfold wlift, try_u32, two32.
  assert (Hd : zlen (ij_data v) <? 4294967296 = true) by (unfold data_ok, fits in H0; lia). rewrite Hd.
  apply (wapp_cons (write_tagged_u32 "SIZE" (Z_to_w32 (zlen (ij_data v))))); [wone|]. wrec. apply wapp_close.
Qed.
Lemma Jpeg_at v pre rest t w c : Jpeg_ok v = true ->
  with_child Jpeg_loop (at_ pre (Jpeg_bytes v ++ rest) 0 t w c)
    = Ok (mkJpegState v (Some (Z_to_w32 (zlen (ij_data v)))), at_ (pre ++ Jpeg_bytes v) rest 0 t w c).
Proof.
  intros H. apply with_child_at. intros tail.
  refine (read_arms_steps Jpeg_arms Jpeg_init _ _ [] tail "" false c (Jpeg_steps v H) _). discriminate.
Qed.
Lemma Jpeg_term : Term Jpeg_loop.
Proof.
  apply Term_read_arms. unfold Jpeg_arms. repeat (apply Forall_cons; [intro s; cbn [snd]|]); [| | | | |apply Forall_nil]; try tm.
  destruct (js_size s); [|apply Term_panic]. apply Term_bind; [apply Term_get_data, w32_to_Z_nonneg|intros; apply Term_ret].
Qed.
Lemma Jpeg_yields : Yields Jpeg_loop (fun s => Jpeg_ok (js_jpeg s) = true).
Proof.
  apply Yields_read_arms; [|reflexivity]. unfold Jpeg_arms, Jpeg_ok.
  repeat (apply Forall_cons; [intros s Hs; cbn [snd]; split_ok Hs|]); [| | | | |apply Forall_nil].
  - eapply Yields_bind; [apply Yields_any, Keeps_u32|]. intros x _. apply Yields_ret. cbn. rewrite Hs, H1, H0, H. reflexivity.
  - destruct (js_size s); [|intros r x r' _ E; discriminate E].
    eapply Yields_bind; [apply Yields_get_data|]. intros x Hx. apply Yields_ret. cbn. rewrite Hs, H1, H0, Hx. reflexivity.
  - eapply Yields_bind; [apply Yields_string|]. intros x Hx. apply Yields_ret. cbn. rewrite Hx, H1, H0, H. reflexivity.
  - eapply Yields_bind; [apply Yields_string|]. intros x Hx. apply Yields_ret. cbn. rewrite Hs, H1, Hx, H. reflexivity.
  - eapply Yields_bind; [apply Yields_string|]. intros x Hx. apply Yields_ret. cbn. rewrite Hs, Hx, H0, H. reflexivity.
Qed.

(** ** Images *)
Definition no_marker (d : bytes) : bool := match find_tag ALTV_bytes d with None => true | Some _ => false end.
Definition md5_ok (d : bytes) : bool := zlen d =? 16.
(** every field can be stored *)
Definition Image_fields_ok (v : ImageData) : bool :=
  str_ok (im_name v) && opt_ok str_ok (im_internal_name v) && str_ok (im_path v) &&
  opt_ok no_marker (im_bits v) && opt_ok Jpeg_ok (im_jpeg v) && opt_ok md5_ok (im_md5_hash v).
(** not both kinds of picture data *)
Definition one_picture (v : ImageData) : bool :=
  match im_bits v, im_jpeg v with Some _, Some _ => false | _, _ => true end.
Definition Image_recs1 (v : ImageData) : list rec :=
  R "NAME" (string_bytes (im_name v)) ::
  orec (im_internal_name v) (fun x => R "INME" (string_bytes x)) ++
  R "PATH" (string_bytes (im_path v)) :: R "WDTH" (w32_bytes (im_width v)) :: R "HGHT" (w32_bytes (im_height v)) ::
  orec (im_link v) (fun x => R "LINK" (w32_bytes x)) ++ [].
Definition Image_recs2 (v : ImageData) : list rec :=
  R "ALTV" (w32_bytes (im_alpha_test_value v)) ::
  orec (im_md5_hash v) (fun x => R "MD5H" x) ++
  orec (im_is_opaque v) (fun x => R "OPAQ" (bool_bytes x)) ++
  orec (im_is_signed v) (fun x => R "SIGN" (bool_bytes x)) ++ [].
Definition Image_recs (v : ImageData) : list rec :=
  Image_recs1 v ++ orec (im_bits v) (fun x => R0 "BITS" x) ++ orec (im_jpeg v) (fun x => R0 "JPEG" (Jpeg_bytes x)) ++ Image_recs2 v.

Definition img1 (v : ImageData) : ImageData :=
  mkImageData (im_name v) (im_internal_name v) (im_path v) (im_width v) (im_height v) (im_link v) (Z_to_w32 0) None None None None None.
Definition img2 (v : ImageData) : ImageData :=
  mkImageData (im_name v) (im_internal_name v) (im_path v) (im_width v) (im_height v) (im_link v) (Z_to_w32 0) None None (im_jpeg v) (im_bits v) None.
Lemma Image_steps1 v : Image_fields_ok v = true -> Steps (dispatch ImageData_arms) ImageData_default (Image_recs1 v) (img1 v).
Proof.
  intros H. unfold Image_fields_ok in H. split_ok H. eapply Steps_eq.
  - unfold Image_recs1. srec. sopt set_im_internal_name im_internal_name. srec. srec. srec. sopt set_im_link im_link. constructor.
  - reflexivity.
Qed.
Lemma Image_steps2 v : Image_fields_ok v = true -> Steps (dispatch ImageData_arms) (img2 v) (Image_recs2 v) v.
Proof.
  intros H. unfold Image_fields_ok in H. split_ok H. eapply Steps_eq.
  - unfold Image_recs2. srec.
    eapply (S_opt set_im_md5_hash im_md5_hash);
      [intros []; reflexivity|reflexivity|reflexivity
      |intros x E; okhyp; unfold md5_ok in *; match goal with H : (zlen x =? 16) = true |- _ => apply Z.eqb_eq in H; rewrite H; reflexivity end
      |reflexivity| |cbv beta].
    { intros x E. okhyp. unfold md5_ok in *. intros pre rest t w c _. unfold rbindM. rewrite get_data_at by lia. reflexivity. }
    sopt set_im_is_opaque im_is_opaque. sopt set_im_is_signed im_is_signed. constructor.
  - destruct v. reflexivity.
Qed.
Lemma data_until_at pre d n rest t w c : no_marker d = true -> size_ok 4 = true ->
  data_until ALTV_bytes (at_ pre (d ++ hdr "ALTV" 4 ++ rest) n t w c) = Ok (d, at_ (pre ++ d) (hdr "ALTV" 4 ++ rest) 0 t w c).
Proof.
  intros Hd _. unfold data_until. cbn [r_data r_pos at_]. rewrite skipn_zlen.
  change (hdr "ALTV" 4) with ([x08; x00; x00; x00] ++ ALTV_bytes). rewrite <- app_assoc.
  rewrite find_tag_after.
  - change (zlen [x08; x00; x00; x00]) with 4. replace (zlen pre + (zlen d + 4) - 4 - zlen pre) with (zlen d) by lia.
    rewrite slice_mid by reflexivity. unfold set_rem, set_pos, at_. cbn [r_data r_pos r_rem r_tag r_warn r_checked].
    rewrite zlen_app, <- !app_assoc. replace (zlen pre + (zlen d + 4) - 4) with (zlen pre + zlen d) by lia. reflexivity.
  - discriminate.
  - repeat constructor; cbn; intuition discriminate.
  - reflexivity.
  - apply find_tag_none; [discriminate|]. unfold no_marker in Hd. destruct (find_tag ALTV_bytes d); [discriminate|reflexivity].
Qed.
Lemma Image_recs2_head v : exists X, enc (Image_recs2 v ++ [endb]) = hdr "ALTV" 4 ++ X.
Proof.
  unfold Image_recs2. cbn [app]. rewrite enc_cons. unfold enc_rec. cbn [R rec_tag rec_n rec_p].
  change (zlen (w32_bytes (im_alpha_test_value v))) with 4. rewrite <- app_assoc. eexists. reflexivity.
Qed.
Lemma Image_csteps v : Image_fields_ok v = true -> one_picture v = true ->
  CSteps (dispatch ImageData_arms) ImageData_default (Image_recs v) v.
Proof.
  intros H H1. unfold Image_recs. eapply Steps_CSteps; [apply Image_steps1, H|].
  pose proof (Image_steps2 v H) as H2. apply Steps_C in H2.
  assert (Hb : opt_ok no_marker (im_bits v) = true) by (unfold Image_fields_ok in H; split_ok H; assumption).
  assert (Hj : opt_ok Jpeg_ok (im_jpeg v) = true) by (unfold Image_fields_ok in H; split_ok H; assumption).
  unfold one_picture in H1. clear H.
  destruct v as [n i p w h l a o s j b m].
  cbn [im_bits im_jpeg] in *. unfold orec.
  destruct b as [b|]; [destruct j as [j|]; [discriminate|]|].
  - cbn [app]. unfold R0. econstructor; [reflexivity| |exact H2].
    intros pre tail w0 c. unfold dispatch.
    change (lookup "BITS"%string ImageData_arms) with (Some (fun s => x <- data_until ALTV_bytes ;; rret (set_im_bits (Some x) s))).
    destruct (Image_recs2_head (mkImageData n i p w h l a o s None (Some b) m)) as [X EX]. rewrite EX, <- app_assoc.
    cbv beta iota. erewrite bindM_ok by (apply data_until_at; [exact Hb|reflexivity]). reflexivity.
  - destruct j as [j|]; [|exact H2]. cbn [app]. unfold R0. econstructor; [reflexivity| |exact H2].
    intros pre tail w0 c. unfold dispatch.
    change (lookup "JPEG"%string ImageData_arms) with (Some (fun s => x <- with_child Jpeg_loop ;; rret (set_im_jpeg (Some (js_jpeg x)) s))).
    cbv beta iota. erewrite bindM_ok by (apply Jpeg_at; exact Hj). reflexivity.
Qed.
Lemma Image_wapp v : Image_fields_ok v = true -> wapp (ImageData_write_m v) (enc (Image_recs v ++ [endb])).
Proof.
  intros H. unfold Image_fields_ok in H. split_ok H. unfold ImageData_write_m, Image_recs, Image_recs1, Image_recs2. recs_norm.
  wrec. woptrec. wrec. wrec. wrec. woptrec. cbn [app].
  apply wapp_app; [apply wapp_orec; intros; apply wapp_tagged0; [reflexivity|apply wbody_data]|].
  apply wapp_app.
  { apply wapp_orec. intros x E. okhyp. eapply wapp_ext; [|apply (wapp_tagged0 "JPEG" (write_data (Jpeg_bytes x))); [reflexivity|apply wbody_data]].
    intros w. unfold wlift. rewrite Jpeg_write by assumption. reflexivity. }
  wrec. apply wapp_app.
  { apply wapp_orec. intros x E. okhyp. apply wapp_data; [reflexivity|]. unfold data_ok, fits, md5_ok in *. lia. }
  woptrec. woptrec. cbn [app]. apply wapp_close.
Qed.
Lemma Image_write v : Image_fields_ok v = true -> ImageData_write v = Ok (enc (Image_recs v ++ [endb])).
Proof. intros H. apply run_wapp; [apply Image_wapp, H|unfold ImageData_write_m; closes]. Qed.
Lemma Image_roundtrip v : Image_fields_ok v = true -> one_picture v = true ->
  exists b, ImageData_write v = Ok b /\ forall c, ImageData_read c b = Ok v.
Proof.
  intros H H1. exists (enc (Image_recs v ++ [endb])). split; [apply Image_write, H|].
  apply run_reader_reads. apply loop_creads, Image_csteps; assumption.
Qed.
Lemma Image_term : Term ImageData_loop.
Proof.
  apply Term_read_arms. unfold ImageData_arms. repeat (apply Forall_cons; [intro s; cbn [snd]|]); [| | | | | | | | | | | |apply Forall_nil]; try tm.
  - apply Term_bind; [apply Term_data_until|intros; apply Term_ret].
  - apply Term_bind; [apply Term_with_child, Jpeg_term|intros; apply Term_ret].
  - apply Term_bind; [apply Term_get_data; lia|intros; apply Term_ret].
Qed.
Lemma Yields_data_until : Yields (data_until ALTV_bytes) (fun d => no_marker d = true).
Proof.
  intros r x r' Hf E. unfold data_until in E. pose proof (find_tag_spec ALTV_bytes (skipn (Z.to_nat (r_pos r)) (r_data r)) ltac:(discriminate)) as HS.
  destruct (find_tag _ _) as [i|]; [|discriminate].
  destruct (slice _ _ _) as [b|f] eqn:Es; [|discriminate]. injection E as <- <-. split; [|reflexivity].
  unfold slice in Es. destruct (_ && _) eqn:Eb; [|discriminate]. injection Es as Es.
  unfold no_marker. replace (find_tag ALTV_bytes b) with (@None Z); [reflexivity|]. symmetry. apply find_tag_none; [discriminate|].
  intros (a & t & Et). destruct HS as [_ HS].
  specialize (HS a (t ++ skipn (Z.to_nat (r_pos r + i - 4 - r_pos r)) (skipn (Z.to_nat (r_pos r)) (r_data r)))).
  assert (X : skipn (Z.to_nat (r_pos r)) (r_data r) = b ++ skipn (Z.to_nat (r_pos r + i - 4 - r_pos r)) (skipn (Z.to_nat (r_pos r)) (r_data r))).
  { rewrite <- Es. symmetry. apply firstn_skipn. }
  rewrite Et in X at 1. rewrite <- !app_assoc in X. specialize (HS X).
  assert (HL : zlen b <= i - 4).
  { rewrite <- Es. unfold zlen. rewrite firstn_length. lia. }
  rewrite Et, !zlen_app in HL. change (zlen ALTV_bytes) with 4 in HL. pose proof (zlen_nonneg t). lia.
Qed.
Lemma Yields_get_data_len n : 0 <= n -> Yields (get_data n) (fun d => (zlen d =? n) = true).
Proof.
  intros Hn r x r' Hf E. unfold get_data in E. apply bindM_inv in E. destruct E as (b & r1 & E1 & E2).
  injection E2 as <- <-. unfold take in E1. destruct (slice _ _ _) as [d|] eqn:Es; [|discriminate]. injection E1 as <- <-.
  split; [|reflexivity]. unfold slice in Es. destruct (_ && _) eqn:Eb; [|discriminate]. injection Es as <-.
  unfold zlen in *. rewrite firstn_length, skipn_length. lia.
Qed.
Lemma Image_yields : Yields ImageData_loop (fun v => Image_fields_ok v = true).
Proof.
  apply Yields_read_arms; [|reflexivity]. unfold ImageData_arms, Image_fields_ok.
  repeat (apply Forall_cons; [intros s Hs; cbn [snd]; split_ok Hs|]); [| | | | | | | | | | | |apply Forall_nil].
  all: eapply Yields_bind;
    [first [apply Yields_string|apply Yields_data_until|apply Yields_with_child, Jpeg_yields|apply Yields_get_data_len; lia
           |apply Yields_any, Keeps_u32|apply Yields_any, Keeps_f32|apply Yields_any, Keeps_bool]
    |intros x Hx; apply Yields_ret].
  all: cbn [set_im_name set_im_path set_im_internal_name set_im_width set_im_height set_im_alpha_test_value set_im_is_opaque
            set_im_is_signed set_im_bits set_im_jpeg set_im_link set_im_md5_hash
            im_name im_internal_name im_path im_bits im_jpeg im_md5_hash opt_ok].
  all: repeat match goal with |- (_ && _) = true => apply andb_true_iff; split end; assumption.
Qed.

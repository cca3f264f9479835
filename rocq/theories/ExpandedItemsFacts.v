(** Facts about the files of extracted game items. *)
From Coq Require Import Permutation.
From Verif Require Import Base Sound Cfb FileSystem ExpandedItems SpecExpanded BaseFacts SoundFacts CfbFacts FileSystemFacts.

(** ** Unique names *)
Lemma contains_iff used s : contains used s = true <-> In s used.
Proof.
  unfold contains. rewrite existsb_exists. split; [intros (x & Hx & E); apply rstring_eqb_eq in E; subst; exact Hx|].
  intros H. exists s. split; [exact H|apply rstring_eqb_eq; reflexivity].
Qed.

Section Unique.
Variables (lower : rstring -> rstring) (alphanumeric : uchar -> bool).
Hypothesis Hl : keeps_numbers lower.

Lemma numbered_inj s j k : lower (s ++ lit "__" ++ dec_text j) = lower (s ++ lit "__" ++ dec_text k) -> j = k.
Proof.
  destruct (Hl s) as (p & E). rewrite !E. intros H. apply app_inv_head in H. apply app_inv_head in H. apply dec_text_inj, H.
Qed.

Lemma unique_loop_ok fuel : forall used s k,
  (forall n, unique_loop lower fuel used s k = Ok n -> exists j, n = s ++ lit "__" ++ dec_text j /\ ~ In (lower n) used) /\
  (unique_loop lower fuel used s k = OutOfFuel ->
   forall i, (i < fuel)%nat -> In (lower (s ++ lit "__" ++ dec_text (k + N.of_nat i))) used) /\
  (forall e, unique_loop lower fuel used s k = Fail e -> e = OutOfFuelF).
Proof.
  induction fuel as [|fuel IH]; intros used s k; cbn [unique_loop].
  - split; [discriminate|]. split; [intros _ i Hi; lia|]. intros e [= <-]. reflexivity.
  - destruct (contains used (lower (s ++ lit "__" ++ dec_text k))) eqn:E.
    + destruct (IH used s (k + 1)%N) as (H1 & H2 & H3). split; [exact H1|]. split; [|exact H3].
      intros O i Hi. destruct i as [|i]; [rewrite N.add_0_r; apply contains_iff, E|].
      replace (k + N.of_nat (S i))%N with (k + 1 + N.of_nat i)%N by lia. apply H2; [exact O|lia].
    + split; [|split; [discriminate|discriminate]]. intros n [= <-]. exists k. split; [reflexivity|].
      intros K. apply (proj2 (contains_iff _ _)) in K. exact (eq_true_false_abs _ K E).
Qed.

Lemma unique_loop_total used s : exists j, unique_loop lower (S (List.length used)) used s 1 = Ok (s ++ lit "__" ++ dec_text j) /\
  ~ In (lower (s ++ lit "__" ++ dec_text j)) used.
Proof.
  destruct (unique_loop_ok (S (List.length used)) used s 1) as (H1 & H2 & H3).
  destruct (unique_loop lower (S (List.length used)) used s 1) as [n|e] eqn:E.
  - destruct (H1 n eq_refl) as (j & -> & N). exists j. auto.
  - exfalso. rewrite (H3 e eq_refl) in *. specialize (H2 eq_refl).
    set (f := fun i => lower (s ++ lit "__" ++ dec_text (1 + N.of_nat i))).
    assert (ND : NoDup (map f (seq 0 (S (List.length used))))).
    { apply FinFun.Injective_map_NoDup; [|apply seq_NoDup]. intros a b H. apply numbered_inj in H. lia. }
    assert (In' : incl (map f (seq 0 (S (List.length used)))) used).
    { intros x Hx. apply in_map_iff in Hx. destruct Hx as (i & <- & Hi). apply in_seq in Hi. apply H2. lia. }
    pose proof (NoDup_incl_length ND In') as L. rewrite map_length, seq_length in L. lia.
Qed.

Lemma ensure_unique_ok used s : exists n, ensure_unique lower used s = Ok (n, lower n :: used) /\ ~ In (lower n) used /\
  (n = s \/ exists j, n = s ++ lit "__" ++ dec_text j).
Proof.
  unfold ensure_unique. destruct (contains used (lower s)) eqn:E; cbn [negb].
  - destruct (unique_loop_total used s) as (j & -> & N). cbn [rbind]. eexists. split; [reflexivity|]. split; [exact N|right; exists j; reflexivity].
  - exists s. split; [reflexivity|]. split; [|left; reflexivity]. intros K. apply (proj2 (contains_iff _ _)) in K. exact (eq_true_false_abs _ K E).
Qed.

Lemma file_names_ok items : forall used, exists names, file_names lower alphanumeric used items = Ok names /\
  Forall2 (fun i n => n = wanted_name alphanumeric i \/ exists j, n = wanted_name alphanumeric i ++ lit "__" ++ dec_text j) items names /\
  NoDup (map lower names) /\ forall n, In n names -> ~ In (lower n) used.
Proof.
  induction items as [|i items IH]; intros used.
  - exists []. repeat split; [constructor|constructor|intros ? []].
  - cbn [file_names]. destruct (ensure_unique_ok used (wanted_name alphanumeric i)) as (n & -> & N & F). cbn [rbind].
    destruct (IH (lower n :: used)) as (names & -> & F2 & ND & NI). cbn [rbind]. exists (n :: names).
    split; [reflexivity|]. split; [constructor; assumption|]. split.
    + cbn [map]. constructor; [|exact ND]. intros K. apply in_map_iff in K. destruct K as (x & E & Hx). apply (NI x Hx). left. auto.
    + intros x [<-|Hx]; [exact N|]. intros K. apply (NI x Hx). right. exact K.
Qed.
End Unique.

(** ** Shapes of names *)
Lemma digits_suffix (a b d e : rstring) : Forall (fun c => (48 <= c <= 57)%N) d -> Forall (fun c => (48 <= c <= 57)%N) e ->
  a ++ [95%N] ++ d = b ++ [95%N] ++ e -> a = b /\ d = e.
Proof.
  intros Hd He E. apply (f_equal (@rev _)) in E. rewrite !rev_app_distr in E. cbn [rev app] in E. rewrite <- !app_assoc in E. cbn [app] in E.
  assert (G : forall x y u v : rstring, Forall (fun c => (48 <= c <= 57)%N) x -> Forall (fun c => (48 <= c <= 57)%N) y ->
    x ++ 95%N :: u = y ++ 95%N :: v -> x = y /\ u = v).
  { intros x. induction x as [|c x IH]; intros y u v Hx Hy H; destruct y as [|c' y]; cbn [app] in H.
    - injection H as ->. auto.
    - injection H as E1 _. inversion Hy; subst. lia.
    - injection H as E1 _. inversion Hx; subst. lia.
    - injection H as -> H. inversion Hx; inversion Hy; subst. destruct (IH y u v) as [-> ->]; auto. }
  apply G in E; [|apply Forall_rev, Hd|apply Forall_rev, He]. destruct E as [E1 E2].
  apply (f_equal (@rev _)) in E1, E2. rewrite !rev_involutive in E1, E2. auto.
Qed.

Definition anim (a : rstring) (k : N) : rstring := a ++ lit "_anim_" ++ dec_text k.
Lemma anim_inj a b j k : anim a j = anim b k -> a = b /\ j = k.
Proof.
  unfold anim. change (lit "_anim_") with (lit "_anim" ++ [95%N]). rewrite <- !app_assoc. rewrite (app_assoc a), (app_assoc b). intros H.
  apply digits_suffix in H; [|apply dec_text_digits|apply dec_text_digits]. destruct H as [H1 H2].
  split; [apply app_inv_tail in H1; exact H1|apply dec_text_inj, H2].
Qed.
Lemma numbered_not_anim s j a k : s ++ lit "__" ++ dec_text j <> anim a k.
Proof.
  unfold anim. change (lit "_anim_") with (lit "_anim" ++ [95%N]). change (lit "__") with ([95%N] ++ [95%N]). rewrite <- !app_assoc.
  rewrite (app_assoc s), (app_assoc a). intros H.
  apply digits_suffix in H; [|apply dec_text_digits|apply dec_text_digits]. destruct H as [H1 _].
  apply (f_equal (fun l => hd 0%N (rev l))) in H1. rewrite !rev_app_distr in H1. discriminate H1.
Qed.
Lemma no_dot_anim k : ~ In 46%N (lit "_anim_" ++ dec_text k).
Proof.
  intros H. apply in_app_or in H. destruct H as [H|H].
  - assert (E : existsb (N.eqb 46) (lit "_anim_") = true) by (apply existsb_exists; exists 46%N; split; [exact H|reflexivity]). discriminate E.
  - pose proof (proj1 (Forall_forall _ _) (dec_text_digits k) _ H) as D. cbv beta in D. lia.
Qed.
(** a suffix without dot of a name with a dot is a suffix of what follows the dot *)
Lemma suffix_after_dot (t s a x : rstring) : ~ In 46%N x -> t ++ [46%N] ++ s = a ++ x -> exists b, s = b ++ x /\ a = t ++ [46%N] ++ b.
Proof.
  intros N E. revert a E. induction t as [|c t IH]; intros a E; cbn [app] in E.
  - destruct a as [|c a]; cbn [app] in E.
    + subst x. exfalso. apply N. left. reflexivity.
    + injection E as <- ->. exists a. auto.
  - destruct a as [|c' a]; cbn [app] in E.
    + exfalso. apply N. rewrite <- E. right. apply in_or_app. right. left. reflexivity.
    + injection E as <- E. destruct (IH a E) as (b & -> & ->). exists b. auto.
Qed.
Lemma wanted_not_anim alphanumeric i a k : clear_name alphanumeric i -> wanted_name alphanumeric i <> anim a k.
Proof.
  intros [H _] E. unfold wanted_name, anim in E. change (lit ".") with [46%N] in E.
  apply suffix_after_dot in E; [|apply no_dot_anim]. destruct E as (b & E & _). revert E. apply H.
Qed.

(** ** Trimming *)
Lemma strip_suffixes_end fuel suffix s : (forall p, s <> p ++ suffix) -> strip_suffixes fuel suffix s = s.
Proof.
  intros H. destruct fuel as [|fuel]; [reflexivity|]. cbn [strip_suffixes].
  destruct (rstring_eqb _ _ && _) eqn:E; [|reflexivity]. exfalso. apply andb_true_iff in E. destruct E as [E _]. apply rstring_eqb_eq in E.
  apply (H (firstn (List.length s - List.length suffix) s)). rewrite <- E at 2. symmetry. apply firstn_skipn.
Qed.
Lemma strip_suffixes_once fuel suffix s : suffix <> [] ->
  strip_suffixes (S fuel) suffix (s ++ suffix) = strip_suffixes fuel suffix s.
Proof.
  intros N. cbn [strip_suffixes]. rewrite app_length. replace (List.length s + List.length suffix - List.length suffix)%nat with (List.length s) by lia.
  rewrite skipn_app, skipn_all2, Nat.sub_diag by lia. cbn [app skipn]. rewrite rstring_eqb_refl.
  replace (List.length suffix <=? List.length s + List.length suffix)%nat with true by (symmetry; apply Nat.leb_le; lia). cbn [andb].
  rewrite firstn_app, firstn_all, Nat.sub_diag. cbn [firstn]. rewrite app_nil_r. reflexivity.
Qed.
Lemma trim_json_once s : trim_json (s ++ lit ".json") = trim_json s.
Proof.
  unfold trim_json. rewrite app_length. change (List.length (lit ".json")) with 5%nat.
  replace (List.length s + 5)%nat with (S (List.length s + 4)) by lia. rewrite strip_suffixes_once by discriminate.
  (* more steps than characters change nothing *)
  assert (G : forall n f g (x : rstring), (List.length x <= n)%nat -> (List.length x <= f)%nat -> (List.length x <= g)%nat ->
     strip_suffixes f (lit ".json") x = strip_suffixes g (lit ".json") x).
  { induction n as [|n IH]; intros f g x Hn Hf Hg.
    - destruct x; [|cbn in Hn; lia]. destruct f, g; reflexivity.
    - destruct f as [|f], g as [|g]; try (destruct x; [reflexivity|cbn in *; lia]).
      cbn [strip_suffixes]. destruct (_ && _) eqn:E; [|reflexivity]. apply andb_true_iff in E. destruct E as [_ E]. apply Nat.leb_le in E.
        change (List.length (lit ".json")) with 5%nat in *. apply IH; rewrite firstn_length; lia. }
  apply (G (List.length s)); lia.
Qed.
Lemma trim_json_plain s : (forall p, s <> p ++ lit ".json") -> trim_json s = s.
Proof. intros H. apply strip_suffixes_end, H. Qed.

Lemma numbered_not_json s j p : s ++ lit "__" ++ dec_text j <> p ++ lit ".json".
Proof.
  intros E. destruct (@exists_last _ (dec_text j) (dec_text_cons j)) as (q & c & Ed).
  pose proof (dec_text_digits j) as D. rewrite Ed in *. apply Forall_app in D. destruct D as [_ D]. inversion D; subst.
  apply (f_equal (fun l => hd 0%N (rev l))) in E. rewrite !app_assoc, !rev_app_distr in E. cbn in E. subst c. lia.
Qed.

Section Named.
Variable alphanumeric : uchar -> bool.
Hypothesis Hdot : alphanumeric 46%N = false.
Lemma safe_no_dot i : ~ In 46%N (file_safe_name alphanumeric i).
Proof.
  unfold file_safe_name. intros H. apply in_map_iff in H. destruct H as (c & E & _). destruct (alphanumeric c) eqn:A; [|discriminate].
  subst c. congruence.
Qed.
Lemma wanted_not_json i p : clear_name alphanumeric i -> wanted_name alphanumeric i <> p ++ lit ".json".
Proof.
  intros [_ H] E. unfold wanted_name in E. fold (file_safe_name alphanumeric i) in E. change (lit ".json") with (lit "." ++ lit "json") in E.
  change (lit ".") with [46%N] in E.
  assert (G : forall t u x y : rstring, ~ In 46%N x -> ~ In 46%N y -> t ++ [46%N] ++ x = u ++ [46%N] ++ y -> x = y).
  { intros t. induction t as [|c t IH]; intros u x y Nx Ny K; destruct u as [|c' u]; cbn [app] in K.
    - injection K as ->. reflexivity.
    - injection K as <- K. exfalso. apply Nx. rewrite K. apply in_or_app. right. left. reflexivity.
    - injection K as -> K. exfalso. apply Ny. rewrite <- K. apply in_or_app. right. left. reflexivity.
    - injection K as _ K. apply (IH u x y Nx Ny K). }
  apply H. apply (G _ _ _ _ (safe_no_dot i)) in E; [exact E|].
  intros K. assert (X : existsb (N.eqb 46) (lit "json") = true) by (apply existsb_exists; exists 46%N; split; [exact K|reflexivity]). discriminate X.
Qed.
End Named.

(** ** The directory as a map *)
Lemma hget_write_all fs : forall dir p, hget p (write_all fs dir) = match hget p (rev fs) with Some d => Some d | None => hget p dir end.
Proof.
  induction fs as [|[q d] fs IH]; intros dir p; [reflexivity|]. cbn [write_all fold_left fst snd].
  change (fold_left _ fs (hinsert q d dir)) with (write_all fs (hinsert q d dir)). rewrite IH. rewrite hget_insert. cbn [rev].
  assert (G : forall (a b : files), hget p (a ++ b) = match hget p a with Some x => Some x | None => hget p b end).
  { induction a as [|[r x] a IHa]; intros b; [reflexivity|]. cbn [app hget]. destruct (rstring_eqb p r); [reflexivity|apply IHa]. }
  rewrite G. destruct (hget p (rev fs)); [reflexivity|]. cbn [hget]. rewrite eqb_dec.
  destruct (list_eq_dec N.eq_dec p q), (list_eq_dec N.eq_dec q p); try reflexivity; congruence.
Qed.
Lemma hget_in_map p d (m : files) : NoDup (map fst m) -> In (p, d) m -> hget p m = Some d.
Proof.
  induction m as [|[q e] m IH]; [intros _ []|]; cbn [map fst hget]; intros ND [H|H]; inversion ND as [|? ? N ND']; subst.
  - injection H as -> ->. rewrite rstring_eqb_refl. reflexivity.
  - rewrite eqb_dec. destruct (list_eq_dec N.eq_dec p q) as [->|_]; [|apply IH; assumption].
    exfalso. apply N. apply (in_map fst) in H. exact H.
Qed.
Lemma hget_written fs p d : NoDup (map fst fs) -> In (p, d) fs -> hget p (write_all fs []) = Some d.
Proof.
  intros ND H. rewrite hget_write_all. rewrite (hget_in_map p d); [reflexivity| |rewrite <- in_rev; exact H].
  rewrite map_rev. apply NoDup_rev, ND.
Qed.
Lemma hget_unwritten fs p : ~ In p (map fst fs) -> hget p (write_all fs []) = None.
Proof.
  intros N. rewrite hget_write_all. rewrite hget_None; [reflexivity|]. rewrite map_rev, <- in_rev. exact N.
Qed.
Lemma length_insert p d m : ~ In p (map fst m) -> List.length (hinsert p d m) = S (List.length m).
Proof.
  induction m as [|[q e] m IH]; cbn [hinsert map fst In List.length]; intros N; [reflexivity|]. rewrite eqb_dec.
  destruct (list_eq_dec N.eq_dec p q) as [->|_]; [tauto|]. cbn [List.length]. rewrite IH; tauto.
Qed.
Lemma length_written fs : forall dir, NoDup (map fst fs) -> (forall p, In p (map fst fs) -> ~ In p (map fst dir)) ->
  List.length (write_all fs dir) = (List.length fs + List.length dir)%nat.
Proof.
  induction fs as [|[q d] fs IH]; intros dir ND Dj; [reflexivity|]. cbn [write_all fold_left fst snd map] in *.
  change (fold_left _ fs (hinsert q d dir)) with (write_all fs (hinsert q d dir)). inversion ND as [|? ? N ND']; subst.
  rewrite IH; [|exact ND'|].
  - rewrite length_insert by (apply Dj; left; reflexivity). cbn [List.length]. lia.
  - intros p Hp K. apply keys_insert in K. destruct K as [->|K]; [contradiction|]. apply (Dj p); [right; exact Hp|exact K].
Qed.

(** ** File names and their owners *)
Lemma frame_is_mesh base k m : frame_file_name base k m = mesh_file_name (anim base (N.of_nat k)) m.
Proof. unfold frame_file_name, mesh_file_name, anim. rewrite <- !app_assoc. reflexivity. Qed.
Lemma mesh_file_inj x y m m' : mesh_file_name x m = mesh_file_name y m' -> x = y /\ m = m'.
Proof.
  intros E. assert (m = m') as <-.
  { apply (f_equal (fun l => hd 0%N (rev l))) in E. unfold mesh_file_name in E. rewrite !rev_app_distr in E.
    destruct m, m'; try reflexivity; discriminate E. }
  split; [|reflexivity]. apply app_inv_tail in E. exact E.
Qed.
Lemma json_not_mesh x y m : json_file_name x <> mesh_file_name y m.
Proof.
  intros E. apply (f_equal (fun l => hd 0%N (rev l))) in E. unfold json_file_name, mesh_file_name in E. rewrite !rev_app_distr in E.
  destruct m; discriminate E.
Qed.
Lemma json_file_inj x y : json_file_name x = json_file_name y -> x = y.
Proof. apply app_inv_tail. Qed.

Lemma bin_file_inj x y : bin_file_name x = bin_file_name y -> x = y.
Proof. apply app_inv_tail. Qed.
Lemma bin_not_json x y : bin_file_name x <> json_file_name y.
Proof.
  intros E. apply (f_equal (fun l => nth 1 (rev l) 0%N)) in E. unfold json_file_name, bin_file_name in E. rewrite !rev_app_distr in E. discriminate E.
Qed.
Lemma bin_not_mesh x y m : bin_file_name x <> mesh_file_name y m.
Proof.
  intros E. apply (f_equal (fun l => hd 0%N (rev l))) in E. unfold bin_file_name, mesh_file_name in E. rewrite !rev_app_distr in E. destruct m; discriminate E.
Qed.
Lemma frame_stem_anim base k : frame_stem base k = anim base (N.of_nat k). Proof. reflexivity. Qed.
Definition pair_keys (m : mesh_format) (stem : rstring) : list rstring :=
  mesh_file_name stem m :: match m with FmtGltf => [bin_file_name stem] | _ => [] end.
Lemma pair_keys_ok m stem d : map fst (mesh_file_pair m stem d) = pair_keys m stem.
Proof. destruct m; reflexivity. Qed.
Lemma pair_keys_stem m s s' p : In p (pair_keys m s) -> In p (pair_keys m s') -> s = s'.
Proof.
  unfold pair_keys. destruct m; cbn [In]; intros H K; repeat match goal with H : _ \/ _ |- _ => destruct H as [H|H] | H : False |- _ => destruct H end; subst;
    first [apply mesh_file_inj in K; symmetry; apply K | exfalso; exact (bin_not_mesh _ _ _ K) | exfalso; exact (bin_not_mesh _ _ _ (eq_sym K)) | apply bin_file_inj in K; symmetry; exact K].
Qed.
Lemma pair_keys_json m s x : ~ In (json_file_name x) (pair_keys m s).
Proof.
  unfold pair_keys. intros [K|K]; [symmetry in K; exact (json_not_mesh _ _ _ K)|]. destruct m; cbn [In] in K; repeat destruct K as [K|K]; try contradiction.
  exact (bin_not_json _ _ K).
Qed.
Lemma pair_keys_nodup m s : NoDup (pair_keys m s).
Proof.
  unfold pair_keys. destruct m; repeat constructor; cbn [In]; try tauto. intros [K|[]]. exact (bin_not_mesh _ _ _ K).
Qed.
Lemma pair_keys_format m s s' m' : In (mesh_file_name s m') (pair_keys m s') -> s = s' /\ m = m'.
Proof.
  unfold pair_keys. intros [K|K]; [apply mesh_file_inj in K; destruct K; auto|]. destruct m; cbn [In] in K; repeat destruct K as [K|K]; try contradiction.
  exfalso. exact (bin_not_mesh _ _ _ K).
Qed.
Lemma frame_files_keys base m frames : forall n, map fst (frame_files base n m frames) =
  flat_map (fun k => pair_keys m (anim base (N.of_nat k))) (seq n (List.length frames)).
Proof.
  induction frames as [|d frames IH]; intros n; [reflexivity|]. cbn [frame_files List.length seq flat_map]. rewrite map_app, IH, pair_keys_ok. reflexivity.
Qed.
Lemma frame_files_in base m frames : forall n k d, nth_error frames k = Some d ->
  forall e, In e (mesh_file_pair m (anim base (N.of_nat (n + k))) d) -> In e (frame_files base n m frames).
Proof.
  induction frames as [|e frames IH]; intros n k d H x X; destruct k as [|k]; try discriminate H; cbn [frame_files nth_error] in *; apply in_or_app.
  - injection H as ->. left. rewrite frame_stem_anim. rewrite Nat.add_0_r in X. exact X.
  - right. apply (IH (S n) k d H). replace (S n + k)%nat with (n + S k)%nat by lia. exact X.
Qed.
Lemma frame_files_len base m frames : forall n, (List.length frames <= List.length (frame_files base n m frames))%nat.
Proof. induction frames as [|d frames IH]; intros n; [cbn; lia|]. cbn [frame_files List.length]. rewrite app_length. cbn [mesh_file_pair List.length]. specialize (IH (S n)). lia. Qed.
Lemma own_frames_nth n frames k : nth_error (own_frames n frames) k = option_map (fun d => fst (d (anim n (N.of_nat k)))) (nth_error frames k).
Proof.
  unfold own_frames. assert (G : forall s, nth_error (map (fun e : nat * mesh_data => fst (snd e (n ++ lit "_anim_" ++ dec_text (N.of_nat (fst e))))) (combine (seq s (List.length frames)) frames)) k =
    option_map (fun d => fst (d (anim n (N.of_nat (s + k))))) (nth_error frames k)); [|apply (G 0%nat)].
  revert k. induction frames as [|d frames IH]; intros k s; [destruct k; reflexivity|]. destruct k as [|k]; cbn [List.length seq combine map nth_error option_map fst snd].
  - rewrite Nat.add_0_r. reflexivity.
  - rewrite IH. replace (s + S k)%nat with (S s + k)%nat by lia. reflexivity.
Qed.
Lemma own_frames_len n frames : List.length (own_frames n frames) = List.length frames.
Proof. unfold own_frames. rewrite map_length, combine_length, seq_length. lia. Qed.

Lemma nodup_concat {A B} (f : A -> list B) l : NoDup l -> (forall a, In a l -> NoDup (f a)) ->
  (forall a b x, In a l -> In b l -> In x (f a) -> In x (f b) -> a = b) -> NoDup (List.concat (map f l)).
Proof.
  induction l as [|a l IH]; intros ND H1 H2; cbn [map List.concat]; [constructor|]. inversion ND as [|? ? N ND']; subst.
  assert (K : NoDup (List.concat (map f l))).
  { apply IH; [exact ND'|intros b Hb; apply H1; right; exact Hb|intros b c x Hb Hc; apply H2; right; assumption]. }
  assert (D : forall x, In x (f a) -> ~ In x (List.concat (map f l))).
  { intros x Hx Hin. apply in_concat in Hin. destruct Hin as (s & Hs & Hxs). apply in_map_iff in Hs. destruct Hs as (b & <- & Hb).
    rewrite (H2 a b x) in N; [contradiction|left; reflexivity|right; exact Hb|exact Hx|exact Hxs]. }
  pose proof (H1 a (or_introl eq_refl)) as Na. clear - K D Na. induction (f a) as [|x s IHs]; [exact K|]. cbn [app]. inversion Na as [|? ? N N']; subst.
  constructor; [|apply IHs; [intros y Hy; apply D; right; exact Hy|exact N']].
  intros Hx. apply in_app_or in Hx. destruct Hx as [Hx|Hx]; [contradiction|]. apply (D x); [left; reflexivity|exact Hx].
Qed.
Lemma combine_key {A B} (l : list A) (r : list B) a b c : NoDup l -> In (a, b) (combine l r) -> In (a, c) (combine l r) -> b = c.
Proof.
  revert r. induction l as [|x l IH]; intros r ND; [intros []|]. destruct r as [|y r]; [intros []|]. cbn [combine]. inversion ND as [|? ? N ND']; subst.
  intros [H|H] [K|K].
  - congruence.
  - injection H as -> _. apply in_combine_l in K. contradiction.
  - injection K as -> _. apply in_combine_l in H. contradiction.
  - apply (IH r ND' H K).
Qed.
Lemma combine_nodup {A B} (l : list A) (r : list B) : NoDup l -> NoDup (combine l r).
Proof.
  revert r. induction l as [|x l IH]; intros r ND; [constructor|]. destruct r as [|y r]; [constructor|]. cbn [combine].
  inversion ND as [|? ? N ND']; subst. constructor; [|apply IH, ND']. intros H. apply in_combine_l in H. contradiction.
Qed.
Lemma concat_map_map {A B C} (g : B -> C) (f : A -> list B) l : map g (List.concat (map f l)) = List.concat (map (fun a => map g (f a)) l).
Proof. induction l as [|a l IH]; [reflexivity|]. cbn [map List.concat]. rewrite map_app, IH. reflexivity. Qed.

Section RoundTrip.
Variables (alphanumeric : uchar -> bool) (json_is_primitive : bytes -> bool) (m : mesh_format).
Hypothesis Hdot : alphanumeric 46%N = false.
Variables (names : list rstring) (items : list xitem).
Hypothesis Hlen : List.length names = List.length items.
Hypothesis Hnames : forall n i, In (n, i) (combine names items) ->
  n = wanted_name alphanumeric i \/ exists j, n = wanted_name alphanumeric i ++ lit "__" ++ dec_text j.
Hypothesis Hnd : NoDup names.
Hypothesis Hprim : forall i, In i items -> xi_mesh i <> None -> json_is_primitive (xi_json i) = true.
Hypothesis Hclear : forall i, In i items -> json_is_primitive (xi_json i) = true -> clear_name alphanumeric i.

Let owns := fun e => In e (combine names items).
Lemma own_not_anim n i a k : owns (n, i) -> json_is_primitive (xi_json i) = true -> n <> anim a k.
Proof.
  intros H P. pose proof (Hclear i (in_combine_r _ _ _ _ H) P) as C.
  destruct (Hnames n i H) as [->|(j & ->)]; [apply wanted_not_anim, C|apply numbered_not_anim].
Qed.
Lemma own_trim n i : owns (n, i) -> json_is_primitive (xi_json i) = true -> trim_json n = n.
Proof.
  intros H P. pose proof (Hclear i (in_combine_r _ _ _ _ H) P) as C. apply trim_json_plain. intros p.
  destruct (Hnames n i H) as [->|(j & ->)]; [apply (wanted_not_json alphanumeric Hdot), C|apply numbered_not_json].
Qed.

Definition stem_of (n : rstring) (count : nat) (s : rstring) : Prop := s = n \/ exists k, (k < count)%nat /\ s = anim n (N.of_nat k).
Definition key_of (n : rstring) (i : xitem) (p : rstring) : Prop :=
  p = json_file_name n \/
  exists d frames s, xi_mesh i = Some (d, frames) /\ stem_of n (List.length frames) s /\ In p (pair_keys m s).
Lemma mesh_prim n i d frames : owns (n, i) -> xi_mesh i = Some (d, frames) -> json_is_primitive (xi_json i) = true.
Proof. intros H E. apply Hprim; [apply (in_combine_r _ _ _ _ H)|congruence]. Qed.
Lemma item_keys n i p : owns (n, i) -> (In p (map fst (item_files m n i)) <-> key_of n i p).
Proof.
  intros H. unfold item_files, key_of. cbn [map fst In]. split.
  - intros [<-|K]; [left; reflexivity|]. right. destruct (xi_mesh i) as [[d frames]|] eqn:E; [|destruct K]. exists d, frames.
    rewrite map_app, pair_keys_ok in K. apply in_app_or in K. destruct K as [K|K]; [exists n; split; [reflexivity|]; split; [left; reflexivity|exact K]|].
    rewrite (own_trim n i H (mesh_prim _ _ _ _ H E)), frame_files_keys in K.
    apply in_flat_map in K. destruct K as (k & Hk & K). apply in_seq in Hk. eexists. split; [reflexivity|]. split; [right; exists k; split; [lia|reflexivity]|exact K].
  - intros [->|(d & frames & s & E & S & K)]; [left; reflexivity|right]. rewrite E, map_app, pair_keys_ok. apply in_or_app.
    destruct S as [->|(k & Hk & ->)]; [left; exact K|right]. rewrite (own_trim n i H (mesh_prim _ _ _ _ H E)), frame_files_keys.
    apply in_flat_map. exists k. split; [apply in_seq; lia|exact K].
Qed.
Lemma stem_owner n i n' i' c c' s : owns (n, i) -> owns (n', i') -> json_is_primitive (xi_json i) = true -> json_is_primitive (xi_json i') = true ->
  stem_of n c s -> stem_of n' c' s -> n = n'.
Proof.
  intros H H' P P' [->|(k & _ & ->)] [K|(k' & _ & K)].
  - exact K.
  - exfalso. exact (own_not_anim _ _ _ _ H P K).
  - exfalso. symmetry in K. exact (own_not_anim _ _ _ _ H' P' K).
  - apply anim_inj in K. apply K.
Qed.
Lemma key_owner n i n' i' p : owns (n, i) -> owns (n', i') -> key_of n i p -> key_of n' i' p -> n = n'.
Proof.
  intros H H' K K'. unfold key_of in K, K'. destruct K as [->|(d & frames & s & E & S & K)]; destruct K' as [K'|(d' & frames' & s' & E' & S' & K')].
  - apply json_file_inj, K'.
  - exfalso. exact (pair_keys_json _ _ _ K').
  - exfalso. subst p. exact (pair_keys_json _ _ _ K).
  - assert (s = s') as <- by (eapply pair_keys_stem; eassumption). exact (stem_owner _ _ _ _ _ _ _ H H' (mesh_prim _ _ _ _ H E) (mesh_prim _ _ _ _ H' E') S S').
Qed.
Lemma item_keys_nodup n i : owns (n, i) -> NoDup (map fst (item_files m n i)).
Proof.
  intros H. unfold item_files. cbn [map fst]. destruct (xi_mesh i) as [[d frames]|] eqn:E.
  - pose proof (mesh_prim _ _ _ _ H E) as P. rewrite map_app, pair_keys_ok, (own_trim n i H P), frame_files_keys. constructor.
    + intros K. apply in_app_or in K. destruct K as [K|K]; [exact (pair_keys_json _ _ _ K)|]. apply in_flat_map in K. destruct K as (k & _ & K). exact (pair_keys_json _ _ _ K).
    + set (stems := n :: map (fun k => anim n (N.of_nat k)) (seq 0 (List.length frames))).
      assert (Q : pair_keys m n ++ flat_map (fun k => pair_keys m (anim n (N.of_nat k))) (seq 0 (List.length frames)) = List.concat (map (pair_keys m) stems)).
      { unfold stems. cbn [map List.concat]. rewrite map_map, flat_map_concat_map. reflexivity. }
      rewrite Q. apply nodup_concat.
      * unfold stems. constructor.
        -- intros K. apply in_map_iff in K. destruct K as (k & K & _). symmetry in K. exact (own_not_anim _ _ _ _ H P K).
        -- apply FinFun.Injective_map_NoDup; [|apply seq_NoDup]. intros a b K. apply anim_inj in K. lia.
      * intros s _. apply pair_keys_nodup.
      * intros s s' p _ _ K K'. eapply pair_keys_stem; eassumption.
  - constructor; [intros []|constructor].
Qed.

Definition all_files : files := List.concat (map (fun e => item_files m (fst e) (snd e)) (combine names items)).
Lemma all_files_keys : map fst all_files = List.concat (map (fun e => map fst (item_files m (fst e) (snd e))) (combine names items)).
Proof. exact (concat_map_map fst _ _). Qed.
Lemma all_keys p : In p (map fst all_files) <-> exists n i, owns (n, i) /\ key_of n i p.
Proof.
  rewrite all_files_keys. rewrite in_concat. split.
  - intros (s & Hs & Hp). apply in_map_iff in Hs. destruct Hs as ([n i] & <- & He). exists n, i. split; [exact He|].
    apply item_keys; [exact He|exact Hp].
  - intros (n & i & He & K). exists (map fst (item_files m n i)). split; [|apply item_keys; assumption].
    apply in_map_iff. exists (n, i). split; [reflexivity|exact He].
Qed.
Lemma all_nodup : NoDup (map fst all_files).
Proof.
  rewrite all_files_keys. apply nodup_concat.
  - apply combine_nodup, Hnd.
  - intros [n i] He. apply item_keys_nodup, He.
  - intros [n i] [n' i'] p He He' Hp Hp'. cbn [fst snd] in Hp, Hp'. apply item_keys in Hp; [|exact He]. apply item_keys in Hp'; [|exact He'].
    assert (n = n') as <- by (eapply key_owner; eassumption). rewrite (combine_key _ _ _ _ _ Hnd He He'). reflexivity.
Qed.
Lemma all_in n i e : owns (n, i) -> In e (item_files m n i) -> In e all_files.
Proof.
  intros H K. unfold all_files. apply in_concat. exists (item_files m n i). split; [|exact K]. apply in_map_iff. exists (n, i). auto.
Qed.

Variable order : files.
Hypothesis Hperm : Permutation all_files order.
Let dir := write_all order [].

Lemma order_nodup : NoDup (map fst order).
Proof. eapply Permutation_NoDup; [apply Permutation_map, Hperm|apply all_nodup]. Qed.
Lemma dir_in n i p d : owns (n, i) -> In (p, d) (item_files m n i) -> hget p dir = Some d.
Proof.
  intros H K. apply hget_written; [apply order_nodup|]. apply (Permutation_in _ Hperm). exact (all_in n i _ H K).
Qed.
Lemma dir_out p : (forall n i, owns (n, i) -> ~ key_of n i p) -> hget p dir = None.
Proof.
  intros H. apply hget_unwritten. intros K. apply (Permutation_in _ (Permutation_sym (Permutation_map fst Hperm))) in K.
  apply all_keys in K. destruct K as (n & i & He & K). exact (H n i He K).
Qed.
Definition same_format (a b : mesh_format) : bool := match a, b with FmtObj, FmtObj | FmtGlb, FmtGlb | FmtGltf, FmtGltf => true | _, _ => false end.
Lemma same_format_eq a b : same_format a b = true <-> a = b. Proof. destruct a, b; cbn; split; congruence. Qed.
Lemma dir_mesh n i m' : owns (n, i) -> json_is_primitive (xi_json i) = true ->
  hget (mesh_file_name n m') dir = match xi_mesh i with Some (d, _) => if same_format m m' then Some (fst (d n)) else None | None => None end.
Proof.
  intros H P.
  assert (Same : forall d frames, xi_mesh i = Some (d, frames) -> hget (mesh_file_name n m) dir = Some (fst (d n))).
  { intros d frames E. apply (dir_in n i); [exact H|]. unfold item_files. rewrite E. right. left. reflexivity. }
  assert (Other : (xi_mesh i = None \/ m <> m') -> hget (mesh_file_name n m') dir = None).
  { intros C. apply dir_out. intros n' i' H' [K|(d & frames & s & E & S & K)].
    - symmetry in K. apply json_not_mesh in K. exact K.
    - apply pair_keys_format in K. destruct K as [<- ->].
      assert (n' = n) as -> by (destruct S as [S|(k & _ & S)]; [congruence|exfalso; exact (own_not_anim _ _ _ _ H P S)]).
      rewrite (combine_key _ _ _ _ _ Hnd H' H) in E. destruct C as [C|C]; congruence. }
  destruct (xi_mesh i) as [[d frames]|] eqn:E; [|apply Other; left; reflexivity].
  destruct (same_format m m') eqn:F; [apply same_format_eq in F; subst m'; exact (Same d frames eq_refl)|].
  apply Other. right. intros ->. rewrite (proj2 (same_format_eq m' m') eq_refl) in F. discriminate F.
Qed.
Lemma dir_frame n i k m' : owns (n, i) -> json_is_primitive (xi_json i) = true ->
  hget (frame_file_name n k m') dir =
  match xi_mesh i with Some (_, frames) => if same_format m m' then nth_error (own_frames n frames) k else None | None => None end.
Proof.
  intros H P. rewrite frame_is_mesh.
  assert (Same : forall d frames x, xi_mesh i = Some (d, frames) -> nth_error frames k = Some x ->
    hget (mesh_file_name (anim n (N.of_nat k)) m) dir = Some (fst (x (anim n (N.of_nat k))))).
  { intros d frames x E Hx. apply (dir_in n i); [exact H|]. unfold item_files. rewrite E. right. apply in_or_app. right. rewrite (own_trim n i H P).
    apply (frame_files_in n m frames 0 k x Hx). left. reflexivity. }
  assert (Other : (xi_mesh i = None \/ m <> m' \/ exists d frames, xi_mesh i = Some (d, frames) /\ nth_error frames k = None) ->
    hget (mesh_file_name (anim n (N.of_nat k)) m') dir = None).
  { intros C. apply dir_out. intros n' i' H' [K|(d & frames & s & E & S & K)].
    - symmetry in K. apply json_not_mesh in K. exact K.
    - apply pair_keys_format in K. destruct K as [<- ->]. destruct S as [S|(k' & Hk & S)].
      + symmetry in S. exact (own_not_anim _ _ _ _ H' (mesh_prim _ _ _ _ H' E) S).
      + apply anim_inj in S. destruct S as [<- S].
        assert (k = k') as <- by lia. rewrite (combine_key _ _ _ _ _ Hnd H' H) in E.
        destruct C as [C|[C|(d' & frames' & E' & C)]]; [congruence|congruence|]. rewrite E in E'. injection E' as <- <-.
        apply nth_error_None in C. lia. }
  destruct (xi_mesh i) as [[d frames]|] eqn:E; [|apply Other; left; reflexivity]. rewrite own_frames_nth.
  destruct (same_format m m') eqn:F.
  - apply same_format_eq in F. subst m'. destruct (nth_error frames k) as [x|] eqn:X; [exact (Same d frames x eq_refl X)|].
    apply Other. right. right. exists d, frames. auto.
  - apply Other. right. left. intros ->. rewrite (proj2 (same_format_eq m' m') eq_refl) in F. discriminate F.
Qed.
Lemma read_frames_ok n i d frames : owns (n, i) -> json_is_primitive (xi_json i) = true -> xi_mesh i = Some (d, frames) ->
  forall rest k fuel, skipn k (own_frames n frames) = rest -> (List.length rest < fuel)%nat -> read_frames fuel n k m dir = Ok rest.
Proof.
  intros H P E rest. assert (SF : same_format m m = true) by (apply same_format_eq; reflexivity).
  induction rest as [|x rest IH]; intros k fuel Hs Hf; (destruct fuel as [|fuel]; [cbn in Hf; lia|]); cbn [read_frames];
    rewrite (dir_frame n i k m H P), E, SF.
  - replace (nth_error (own_frames n frames) k) with (@None bytes); [reflexivity|]. symmetry. apply nth_error_None.
    apply (f_equal (@List.length _)) in Hs. rewrite skipn_length in Hs. cbn in Hs. lia.
  - assert (X : nth_error (own_frames n frames) k = Some x /\ skipn (S k) (own_frames n frames) = rest).
    { clear - Hs. revert k Hs. induction (own_frames n frames) as [|y l IHl]; intros k Hs; [destruct k; discriminate Hs|].
      destruct k as [|k]; cbn [skipn nth_error] in *; [injection Hs as -> <-; auto|apply IHl, Hs]. }
    destruct X as [X1 X2]. rewrite X1. rewrite (IH (S k) fuel X2) by (cbn in Hf; lia). reflexivity.
Qed.
Lemma dir_long n i d frames : owns (n, i) -> xi_mesh i = Some (d, frames) -> (List.length frames < S (List.length dir))%nat.
Proof.
  intros H E. unfold dir. rewrite length_written; [|apply order_nodup|intros p _ []]. cbn [List.length]. rewrite Nat.add_0_r.
  rewrite <- (Permutation_length Hperm). unfold all_files.
  assert (L : (List.length (item_files m n i) <= List.length (List.concat (map (fun e => item_files m (fst e) (snd e)) (combine names items))))%nat).
  { clear - H. unfold owns in H. induction (combine names items) as [|e l IH]; [destruct H|]. cbn [map List.concat]. rewrite app_length.
    destruct H as [->|H]; [cbn [fst snd]; lia|]. specialize (IH H). lia. }
  apply Nat.lt_succ_r. etransitivity; [|exact L]. unfold item_files. rewrite E. cbn [List.length]. rewrite app_length.
  pose proof (frame_files_len (trim_json n) m frames 0). lia.
Qed.
Lemma read_game_item_ok n i : owns (n, i) -> read_game_item json_is_primitive (json_file_name n) dir = Ok (own_data m n i).
Proof.
  intros H. unfold read_game_item. rewrite (dir_in n i (json_file_name n) (xi_json i) H) by (left; reflexivity).
  destruct (json_is_primitive (xi_json i)) eqn:P.
  - replace (trim_json (json_file_name n)) with n by (unfold json_file_name; rewrite trim_json_once, (own_trim n i H P); reflexivity).
    unfold first_format, own_data. rewrite !(dir_mesh n i _ H P), !(dir_frame n i _ _ H P).
    destruct (xi_mesh i) as [[d frames]|] eqn:E; [|reflexivity].
    pose proof (fun m' => dir_mesh n i m' H P) as DM. rewrite E in DM.
    pose proof (read_frames_ok n i d frames H P E (own_frames n frames) 0 (S (List.length dir)) eq_refl) as R.
    rewrite own_frames_len in R. specialize (R (dir_long n i d frames H E)).
    destruct m; cbn [same_format]; destruct frames as [|x frames]; (replace (nth_error (own_frames n []) 0) with (@None bytes) by reflexivity) || idtac;
      cbn [option_map fst]; rewrite ?DM; cbn [same_format option_map]; try (cbn; reflexivity);
      unfold own_frames at 1; cbn [List.length seq combine map nth_error]; rewrite R; reflexivity.
  - unfold own_data. destruct (xi_mesh i) as [[d frames]|] eqn:E; [|reflexivity].
    rewrite (mesh_prim n i d frames H E) in P. discriminate P.
Qed.
Lemma bins_ok n i : owns (n, i) -> m = FmtGltf -> own_bins n i dir.
Proof.
  intros H M. unfold own_bins. destruct (xi_mesh i) as [[d frames]|] eqn:E; [|exact I]. split.
  - apply (dir_in n i); [exact H|]. unfold item_files. rewrite E, M. right. apply in_or_app. left. right. left. reflexivity.
  - intros k f F; cbv zeta. apply (dir_in n i); [exact H|]. unfold item_files. rewrite E, M, (own_trim n i H (mesh_prim _ _ _ _ H E)). right. apply in_or_app. right.
    apply (frame_files_in n FmtGltf frames 0 k f F). right. left. reflexivity.
Qed.
Lemma read_gameitems_ok : read_gameitems json_is_primitive (map json_file_name names) dir = Ok (map (fun e => own_data m (fst e) (snd e)) (combine names items)).
Proof.
  assert (G : forall ns is, List.length ns = List.length is -> (forall e, In e (combine ns is) -> owns e) ->
    read_gameitems json_is_primitive (map json_file_name ns) dir = Ok (map (fun e => own_data m (fst e) (snd e)) (combine ns is))).
  { induction ns as [|n ns IH]; intros is L H; destruct is as [|i is]; try discriminate L; [reflexivity|]. cbn [map read_gameitems].
    rewrite (read_game_item_ok n i) by (apply H; left; reflexivity). cbn [rbind].
    rewrite (IH is); [reflexivity|injection L as L; exact L|intros e He; apply H; right; exact He]. }
  apply G; [exact Hlen|auto].
Qed.
End RoundTrip.

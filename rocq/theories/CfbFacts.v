(** Facts about compound files. *)
From Verif Require Import Base Text Image Sound Cfb BaseFacts SoundFacts.

(** ** Decimal notation *)
Definition dec_value (s : rstring) : N := fold_left (fun a c => (a * 10 + (c - 48)))%N s 0%N.
Lemma dec_value_snoc s c : dec_value (s ++ [c]) = (dec_value s * 10 + (c - 48))%N.
Proof. unfold dec_value. rewrite fold_left_app. reflexivity. Qed.
Lemma dec_digits_value fuel : forall n, (n < 2 ^ N.of_nat fuel)%N -> (0 < fuel)%nat -> dec_value (dec_digits fuel n) = n.
Proof.
  induction fuel as [|fuel IH]; intros n Hn Hf; [lia|]. cbn [dec_digits].
  destruct (N.ltb_spec n 10) as [H|H].
  - unfold dec_value. cbn [fold_left]. lia.
  - rewrite dec_value_snoc. rewrite Nat2N.inj_succ, N.pow_succ_r' in Hn.
    assert (Hq : (n / 10 < 2 ^ N.of_nat fuel)%N).
    { apply N.div_lt_upper_bound; [lia|]. lia. }
    rewrite IH; [|exact Hq|].
    + pose proof (N.div_mod n 10 ltac:(lia)). pose proof (N.mod_lt n 10 ltac:(lia)). lia.
    + destruct fuel; [|lia]. cbn in Hn. lia.
Qed.
Lemma dec_text_value n : dec_value (dec_text n) = n.
Proof.
  apply dec_digits_value; [|lia]. rewrite Nat2N.inj_succ, N2Nat.id.
  destruct (N.eq_dec n 0) as [->|H]; [reflexivity|]. apply N.log2_spec. lia.
Qed.
Lemma dec_text_inj a b : dec_text a = dec_text b -> a = b.
Proof. intros H. rewrite <- (dec_text_value a), <- (dec_text_value b), H. reflexivity. Qed.
Lemma dec_digits_digits fuel : forall n, Forall (fun c => (48 <= c <= 57)%N) (dec_digits fuel n).
Proof.
  induction fuel as [|fuel IH]; intros n; cbn [dec_digits]; [constructor|].
  destruct (N.ltb_spec n 10).
  - constructor; [lia|constructor].
  - apply Forall_app. split; [apply IH|]. pose proof (N.mod_lt n 10 ltac:(lia)). constructor; [lia|constructor].
Qed.
Lemma dec_text_digits n : Forall (fun c => (48 <= c <= 57)%N) (dec_text n).
Proof. apply dec_digits_digits. Qed.
Lemma dec_digits_length fuel : forall n k, (n < 10 ^ N.of_nat k)%N -> (1 <= k)%nat -> (List.length (dec_digits fuel n) <= k)%nat.
Proof.
  induction fuel as [|fuel IH]; intros n k Hn Hk; cbn [dec_digits]; [cbn; lia|].
  destruct (N.ltb_spec n 10).
  - cbn. lia.
  - rewrite app_length. cbn [List.length]. destruct k as [|k]; [lia|].
    rewrite Nat2N.inj_succ, N.pow_succ_r' in Hn.
    assert (Hq : (n / 10 < 10 ^ N.of_nat k)%N) by (apply N.div_lt_upper_bound; lia).
    destruct k as [|k]; [cbn in Hn; lia|]. specialize (IH _ _ Hq). lia.
Qed.
Lemma dec_text_length n k : (n < 10 ^ N.of_nat k)%N -> (1 <= k)%nat -> (List.length (dec_text n) <= k)%nat.
Proof. apply dec_digits_length. Qed.
Lemma dec_digits_cons fuel n : (0 < fuel)%nat -> dec_digits fuel n <> [].
Proof.
  destruct fuel; [lia|]. intros _. cbn [dec_digits]. destruct (n <? 10)%N; [discriminate|]. intros E. apply app_eq_nil in E. destruct E; discriminate.
Qed.
Lemma dec_text_cons n : dec_text n <> [].
Proof. apply dec_digits_cons. lia. Qed.

(** ** Names *)
Lemma rstring_eqb_refl (a : rstring) : rstring_eqb a a = true.
Proof. apply rstring_eqb_eq. reflexivity. Qed.
Lemma rstring_eqb_neq (a b : rstring) : a <> b -> rstring_eqb a b = false.
Proof. intros H. destruct (rstring_eqb a b) eqn:E; [|reflexivity]. apply rstring_eqb_eq in E. contradiction. Qed.

Section Names.
Variable up : N -> N.
Local Notation fold_name := (fold_name up).
Local Notation path_eqb := (path_eqb up).
Local Notation cf_find := (cf_find up).
Local Notation cf_node := (cf_node up).
Definition fpath (p : cpath) : cpath := map fold_name p.
#[global] Arguments fpath : simpl never.
Definition keys (f : cfile) : list cpath := map (fun e => fpath (fst e)) f.

Lemma path_eqb_iff p q : path_eqb p q = true <-> fpath p = fpath q.
Proof.
  revert q. induction p as [|x p IH]; intros [|y q]; try (split; [discriminate|discriminate]).
  { split; reflexivity. }
  unfold fpath. cbn [map Cfb.path_eqb].
  rewrite andb_true_iff, IH. unfold name_eqb. rewrite rstring_eqb_eq. fold (fpath p) (fpath q). unfold name_eqb. split.
  - intros [E1 E2]. congruence.
  - intros E. injection E as E1 E2. auto.
Qed.
Lemma path_eqb_refl p : path_eqb p p = true.
Proof. apply path_eqb_iff. reflexivity. Qed.
Lemma path_eqb_false p q : fpath p <> fpath q -> path_eqb p q = false.
Proof. intros H. destruct (path_eqb p q) eqn:E; [|reflexivity]. apply path_eqb_iff in E. contradiction. Qed.

Lemma keys_app f g : keys (f ++ g) = keys f ++ keys g.
Proof. apply map_app. Qed.
Lemma cf_find_app p f g : cf_find p (f ++ g) = match cf_find p f with Some n => Some n | None => cf_find p g end.
Proof. induction f as [|[q n] f IH]; [reflexivity|]. cbn. destruct (path_eqb p q); [reflexivity|exact IH]. Qed.
Lemma cf_find_none p f : cf_find p f = None <-> ~ In (fpath p) (keys f).
Proof.
  induction f as [|[q n] f IH]; cbn; [intuition congruence|].
  destruct (path_eqb p q) eqn:E.
  - apply path_eqb_iff in E. split; [discriminate|]. intros H. exfalso. apply H. left. symmetry. exact E.
  - rewrite IH. split.
    + intros H [H1|H1]; [|auto]. assert (path_eqb p q = true) by (apply path_eqb_iff; symmetry; exact H1). congruence.
    + intros H H1. apply H. right. exact H1.
Qed.
Lemma cf_find_in p n f : NoDup (keys f) -> In (p, n) f -> cf_find p f = Some n.
Proof.
  induction f as [|[q m] f IH]; intros HN HI; [destruct HI|]. cbn in *. inversion HN as [|k ks H1 H2]; subst. destruct HI as [HI|HI].
  - injection HI as -> ->. rewrite path_eqb_refl. reflexivity.
  - rewrite path_eqb_false; [apply IH; assumption|]. intros E. apply H1. rewrite <- E.
    apply (in_map (fun e => fpath (fst e)) _ _ HI).
Qed.
Lemma cf_find_some p n f : cf_find p f = Some n -> exists q, In (q, n) f /\ fpath p = fpath q.
Proof.
  induction f as [|[q m] f IH]; cbn; [discriminate|]. destruct (path_eqb p q) eqn:E.
  - intros [= ->]. exists q. split; [left; reflexivity|]. apply path_eqb_iff, E.
  - intros H. destruct (IH H) as (q' & H1 & H2). exists q'. split; [right|]; assumption.
Qed.
Lemma cf_find_fpath p q f : fpath p = fpath q -> cf_find p f = cf_find q f.
Proof.
  intros H. induction f as [|[r m] f IH]; [reflexivity|]. cbn. rewrite IH.
  destruct (path_eqb p r) eqn:E1, (path_eqb q r) eqn:E2; try reflexivity.
  - apply path_eqb_iff in E1. assert (path_eqb q r = true) by (apply path_eqb_iff; congruence). congruence.
  - apply path_eqb_iff in E2. assert (path_eqb p r = true) by (apply path_eqb_iff; congruence). congruence.
Qed.
Lemma cf_node_find p f : p <> [] -> cf_node p f = cf_find p f.
Proof. destruct p; [congruence|reflexivity]. Qed.
Lemma cf_node_in p n f : p <> [] -> NoDup (keys f) -> In (p, n) f -> cf_node p f = Some n.
Proof. intros Hp HN HI. rewrite cf_node_find by exact Hp. apply cf_find_in; assumption. Qed.
Lemma cf_node_none p f : p <> [] -> ~ In (fpath p) (keys f) -> cf_node p f = None.
Proof. intros Hp H. rewrite cf_node_find by exact Hp. apply cf_find_none, H. Qed.

Lemma cf_set_same p n f : cf_find p f = None -> cf_set up p n f = f.
Proof. induction f as [|[q m] f IH]; [reflexivity|]. cbn. destruct (path_eqb p q); [discriminate|]. intros H. rewrite IH by exact H. reflexivity. Qed.
Lemma cf_set_app p n f g : cf_find p f = None -> cf_set up p n (f ++ g) = f ++ cf_set up p n g.
Proof.
  induction f as [|[q m] f IH]; [reflexivity|]. cbn. destruct (path_eqb p q); [discriminate|].
  intros H. rewrite IH by exact H. reflexivity.
Qed.
Lemma cf_set_set p n m f : cf_set up p n (cf_set up p m f) = cf_set up p n f.
Proof.
  induction f as [|[q x] f IH]; [reflexivity|]. cbn. destruct (path_eqb p q) eqn:E; cbn; rewrite E; [reflexivity|]. rewrite IH. reflexivity.
Qed.
Lemma cf_find_set q p n f : cf_find q (cf_set up p n f) =
  if path_eqb q p then match cf_find p f with Some _ => Some n | None => None end else cf_find q f.
Proof.
  induction f as [|[r m] f IH]; cbn; [destruct (path_eqb q p); reflexivity|].
  destruct (path_eqb p r) eqn:E; cbn.
  - destruct (path_eqb q r) eqn:E2.
    + assert (H : path_eqb q p = true) by (apply path_eqb_iff in E, E2; apply path_eqb_iff; congruence). rewrite H. reflexivity.
    + destruct (path_eqb q p) eqn:E3; [|reflexivity].
      exfalso. apply path_eqb_iff in E, E3. assert (path_eqb q r = true) by (apply path_eqb_iff; congruence). congruence.
  - destruct (path_eqb q r) eqn:E2; [|exact IH].
    destruct (path_eqb q p) eqn:E3; [|reflexivity].
    exfalso. apply path_eqb_iff in E2, E3. assert (path_eqb p r = true) by (apply path_eqb_iff; congruence). congruence.
Qed.
Lemma cf_node_set q p n f : q <> [] -> p <> [] -> cf_node q (cf_set up p n f) =
  if path_eqb q p then match cf_node p f with Some _ => Some n | None => None end else cf_node q f.
Proof. intros Hq Hp. rewrite !cf_node_find by assumption. apply cf_find_set. Qed.
Lemma keys_set p n f : keys (cf_set up p n f) = keys f.
Proof.
  induction f as [|[q m] f IH]; [reflexivity|]. cbn [cf_set]. destruct (path_eqb p q); [reflexivity|].
  unfold keys in *. cbn [map]. rewrite IH. reflexivity.
Qed.

(** ** Storing *)
Lemma cf_store_new b p d f : p <> [] -> ~ In (fpath p) (keys f) -> cf_node (removelast p) f = Some Storage ->
  valid_stream_name (last p []) = true -> cf_store up b p (Ok d) f = Ok (f ++ [(p, Stream d)]).
Proof.
  intros Hp Hk Hs Hv. unfold cf_store, cf_create_stream. rewrite cf_node_none by assumption.
  unfold cf_insert. rewrite Hs, Hv. cbn. rewrite cf_set_app by (apply cf_find_none, Hk). cbn. rewrite path_eqb_refl. reflexivity.
Qed.
Lemma cf_store_old p d d0 f : cf_node p f = Some (Stream d0) -> cf_store up true p (Ok d) f = Ok (cf_set up p (Stream d) f).
Proof. intros H. unfold cf_store, cf_create_stream. rewrite H. cbn. rewrite cf_set_set. reflexivity. Qed.
Lemma cf_create_storage_new p f : p <> [] -> ~ In (fpath p) (keys f) -> cf_node (removelast p) f = Some Storage ->
  valid_stream_name (last p []) = true -> cf_create_storage up p f = Ok (f ++ [(p, Storage)]).
Proof.
  intros Hp Hk Hs Hv. unfold cf_create_storage, cf_exists. rewrite cf_node_none by assumption.
  unfold cf_insert. rewrite Hs, Hv. reflexivity.
Qed.
Lemma cf_children_app p f g : cf_children up p (f ++ g) = cf_children up p f ++ cf_children up p g.
Proof. apply flat_map_app. Qed.
Lemma cf_node_app_old p f g n : p <> [] -> cf_node p f = Some n -> cf_node p (f ++ g) = Some n.
Proof. intros Hp. rewrite !cf_node_find by exact Hp. rewrite cf_find_app. intros ->. reflexivity. Qed.
End Names.

(** The in-memory file system refines a map from paths to contents. *)
From Verif Require Import Base Sound BaseFacts SoundFacts FileSystem SpecFileSystem.

Local Notation eqp := (list_eq_dec N.eq_dec).
Lemma eqb_dec a b : rstring_eqb a b = if eqp a b then true else false.
Proof.
  destruct (eqp a b) as [->|N]; [apply rstring_eqb_eq; reflexivity|].
  destruct (rstring_eqb a b) eqn:E; [|reflexivity]. apply rstring_eqb_eq in E. contradiction.
Qed.

Lemma hget_insert p q d m : hget p (hinsert q d m) = if eqp q p then Some d else hget p m.
Proof.
  induction m as [|[r e] m IH]; cbn [hinsert hget].
  - rewrite eqb_dec. destruct (eqp p q), (eqp q p); try reflexivity; congruence.
  - rewrite !eqb_dec. destruct (eqp q r) as [E|N]; cbn [hget]; rewrite eqb_dec.
    + destruct (eqp p r), (eqp q p); try reflexivity; congruence.
    + rewrite IH. destruct (eqp p r), (eqp q p); try reflexivity; congruence.
Qed.
Lemma hget_None p m : ~ In p (map fst m) -> hget p m = None.
Proof.
  induction m as [|[r e] m IH]; cbn [hget map fst In]; intros H; [reflexivity|]. rewrite eqb_dec.
  destruct (eqp p r) as [->|N]; [tauto|]. apply IH. tauto.
Qed.
Lemma hget_In p m : hget p m <> None <-> In p (map fst m).
Proof.
  induction m as [|[r e] m IH]; cbn [hget map fst In]; [intuition|]. rewrite eqb_dec.
  destruct (eqp p r) as [->|N]; [intuition discriminate|]. rewrite IH. intuition congruence.
Qed.
Lemma hget_remove p q m : NoDup (map fst m) -> hget p (hremove q m) = if eqp q p then None else hget p m.
Proof.
  induction m as [|[r e] m IH]; cbn [hremove hget map fst]; intros H; [destruct (eqp q p); reflexivity|]. inversion H as [|? ? Hr Hm]; subst.
  rewrite !eqb_dec. destruct (eqp q r) as [E|N]; cbn [hget].
  - destruct (eqp q p) as [E'|N']; [apply hget_None; congruence|]. destruct (eqp p r); [congruence|reflexivity].
  - rewrite eqb_dec. rewrite IH by assumption. destruct (eqp p r), (eqp q p); try reflexivity; congruence.
Qed.
Lemma keys_insert q d m : forall x, In x (map fst (hinsert q d m)) -> x = q \/ In x (map fst m).
Proof.
  induction m as [|[r e] m IH]; cbn [hinsert map fst In]; intros x; [intuition|].
  destruct (rstring_eqb q r); cbn [map fst In]; [intuition|]. intros [->|H]; [intuition|]. destruct (IH x H); intuition.
Qed.
Lemma nodup_insert q d m : NoDup (map fst m) -> NoDup (map fst (hinsert q d m)).
Proof.
  induction m as [|[r e] m IH]; cbn [hinsert map fst]; intros H; [constructor; [intros []|constructor]|].
  inversion H as [|? ? Hr Hm]; subst. rewrite eqb_dec. destruct (eqp q r) as [->|N]; cbn [map fst]; [exact H|].
  constructor; [|apply IH; exact Hm]. intros K. apply keys_insert in K. destruct K; [congruence|contradiction].
Qed.
Lemma keys_remove q m : forall x, In x (map fst (hremove q m)) -> In x (map fst m).
Proof.
  induction m as [|[r e] m IH]; cbn [hremove map fst In]; intros x; [intuition|].
  destruct (rstring_eqb q r); cbn [map fst In]; [intuition|]. intros [->|H]; [intuition|]. right. apply IH, H.
Qed.
Lemma nodup_remove q m : NoDup (map fst m) -> NoDup (map fst (hremove q m)).
Proof.
  induction m as [|[r e] m IH]; cbn [hremove map fst]; intros H; [constructor|].
  inversion H as [|? ? Hr Hm]; subst. destruct (rstring_eqb q r); cbn [map fst]; [exact Hm|].
  constructor; [|apply IH; exact Hm]. intros K. apply keys_remove in K. contradiction.
Qed.

Lemma nth_set_nth {A} (l : list A) n x k : nth_error (set_nth n x l) k =
  if Nat.eqb n k then (match nth_error l n with Some _ => Some x | None => None end) else nth_error l k.
Proof.
  revert n k. induction l as [|y l IH]; intros n k; cbn [set_nth].
  - destruct (Nat.eqb n k), k, n; reflexivity.
  - destruct n as [|n]; destruct k as [|k]; cbn [nth_error Nat.eqb]; try reflexivity. apply IH.
Qed.
Lemma length_set_nth {A} (l : list A) n x : List.length (set_nth n x l) = List.length l.
Proof. revert n. induction l as [|y l IH]; intros [|n]; cbn; auto. Qed.

(** What a state that was reached by a history holds *)
Record reached (past : list fs_op) (s : memfs) : Prop := mkReached {
  re_keys : NoDup (map fst (mf_files s));
  re_content : forall p, hget p (mf_files s) = content p past;
  re_count : List.length (mf_writers s) = List.length (created past);
  re_writer : forall h, writer h s = match open_writer h past with Some p => Some (p, written h past) | None => None end }.

Lemma open_writer_lt h past p : open_writer h past = Some p -> Nat.ltb h (List.length (created past)) = true.
Proof.
  unfold open_writer. destruct (dropped h past); [discriminate|]. intros H. apply Nat.ltb_lt. apply nth_error_Some. congruence.
Qed.
Lemma dropped_lt h past : dropped h past = true -> Nat.ltb h (List.length (created past)) = true.
Proof.
  induction past as [|o past IH]; [discriminate|]. destruct o; cbn [dropped created]; try exact IH.
  - intros H. apply IH in H. apply Nat.ltb_lt in H. apply Nat.ltb_lt. rewrite app_length. cbn. lia.
  - intros H. apply orb_true_iff in H. destruct H as [H|H]; [|apply IH, H]. destruct (Nat.eqb h0 h); [exact H|discriminate].
Qed.
Lemma not_created_unwritten h past : Nat.ltb h (List.length (created past)) = false -> written h past = [].
Proof.
  induction past as [|o past IH]; [reflexivity|]. destruct o; cbn [written created]; try exact IH.
  - intros H. apply IH. apply Nat.ltb_ge in H. apply Nat.ltb_ge. rewrite app_length in H. lia.
  - intros H. rewrite H, andb_false_r, app_nil_r. apply IH, H.
Qed.

Lemma step_reached past s o : reached past s -> reached (o :: past) (fs_step s o).
Proof.
  intros [K C L W]. destruct o as [p d|p|h d|h|h|p| |p q|p]; cbn [fs_step].
  - split; cbn [mf_files mf_writers]; [apply nodup_insert, K| |exact L|exact W].
    intros x. rewrite hget_insert. cbn [content]. rewrite C. reflexivity.
  - split; cbn [mf_files mf_writers]; [exact K|exact C| |].
    + cbn [created]. rewrite !app_length. cbn. lia.
    + intros h. unfold writer, open_writer. cbn [mf_writers dropped created written].
      specialize (W h). unfold writer, open_writer in W.
      destruct (Nat.ltb_spec h (List.length (created past))) as [B|B].
      * rewrite !nth_error_app1 by lia. exact W.
      * destruct (dropped h past) eqn:D; [apply dropped_lt in D; apply Nat.ltb_lt in D; lia|].
        rewrite !nth_error_app2 by lia. rewrite L.
        destruct (h - List.length (created past))%nat as [|n]; cbn [nth_error]; [|destruct n; reflexivity].
        rewrite not_created_unwritten by (apply Nat.ltb_ge; exact B). reflexivity.
  - pose proof (W h) as Wh.
    assert (G : forall s', mf_files s' = mf_files s -> List.length (mf_writers s') = List.length (mf_writers s) ->
      (forall k, writer k s' = match open_writer k past with Some p => Some (p, written k (WriterWrite h d :: past)) | None => None end) ->
      reached (WriterWrite h d :: past) s').
    { intros s' F Ln Wn. split; [rewrite F; exact K|intros x; rewrite F; apply C|rewrite Ln; exact L|exact Wn]. }
    destruct (writer h s) as [[p b]|] eqn:E.
    + destruct (open_writer h past) as [p'|] eqn:O; [|discriminate]. injection Wh as -> ->.
      apply G; [reflexivity|apply length_set_nth|]. intros k. unfold writer. cbn [mf_writers]. rewrite nth_set_nth.
      cbn [written]. destruct (Nat.eqb_spec h k) as [<-|N].
      * rewrite O. pose proof E as E'. unfold writer in E'. destruct (nth_error (mf_writers s) h); [|discriminate].
        rewrite (open_writer_lt _ _ _ O). reflexivity.
      * cbn [andb]. rewrite app_nil_r. apply (W k).
    + apply G; [reflexivity|reflexivity|]. intros k. rewrite (W k). cbn [written]. destruct (Nat.eqb_spec h k) as [<-|N].
      * destruct (open_writer h past); [discriminate|reflexivity].
      * cbn [andb]. rewrite app_nil_r. reflexivity.
  - pose proof (W h) as Wh. destruct (writer h s) as [[p b]|] eqn:E.
    + destruct (open_writer h past) as [p'|] eqn:O; [|discriminate]. injection Wh as -> ->.
      split; cbn [mf_files mf_writers]; [apply nodup_insert, K| |exact L|exact W].
      intros x. rewrite hget_insert. cbn [content]. rewrite O, C. reflexivity.
    + destruct (open_writer h past) as [p'|] eqn:O; [discriminate|]. split; [exact K| |exact L|exact W].
      intros x. cbn [content]. rewrite O. apply C.
  - pose proof (W h) as Wh. destruct (writer h s) as [[p b]|] eqn:E.
    + destruct (open_writer h past) as [p'|] eqn:O; [|discriminate]. injection Wh as -> ->.
      split; cbn [mf_files mf_writers]; [apply nodup_insert, K| |rewrite length_set_nth; exact L|].
      * intros x. rewrite hget_insert. cbn [content]. rewrite O, C. reflexivity.
      * intros k. unfold writer, open_writer. cbn [mf_writers dropped created written]. rewrite nth_set_nth.
        destruct (Nat.eqb_spec h k) as [<-|N].
        -- rewrite (open_writer_lt _ _ _ O). cbn [orb]. destruct (nth_error (mf_writers s) h); reflexivity.
        -- cbn [orb]. apply (W k).
    + destruct (open_writer h past) as [p'|] eqn:O; [discriminate|]. split; [exact K| |exact L|].
      * intros x. cbn [content]. rewrite O. apply C.
      * intros k. rewrite (W k). unfold open_writer. cbn [dropped created written]. destruct (Nat.eqb_spec h k) as [<-|N]; [|reflexivity].
        unfold open_writer in O. destruct (dropped h past); [rewrite orb_true_r; reflexivity|].
        rewrite O. destruct (_ || _); reflexivity.
  - split; cbn [mf_files mf_writers]; [apply nodup_remove, K| |exact L|exact W].
    intros x. rewrite hget_remove by exact K. cbn [content]. rewrite C. reflexivity.
  - split; cbn [mf_files mf_writers]; [constructor| |exact L|exact W]. intros x. reflexivity.
  - rewrite C. destruct (content p past) as [d|] eqn:E.
    + split; cbn [mf_files mf_writers]; [apply nodup_remove, nodup_insert, K| |exact L|exact W].
      intros x. rewrite hget_remove by (apply nodup_insert, K). rewrite hget_insert. cbn [content]. rewrite E, C. reflexivity.
    + split; [exact K| |exact L|exact W]. intros x. cbn [content]. rewrite E. apply C.
  - split; [exact K|exact C|exact L|exact W].
Qed.

Lemma run_reached h : reached (rev h) (fs_run h).
Proof.
  rewrite <- (rev_involutive h) at 2. generalize (rev h) as past. clear h. intros past. induction past as [|o past IH].
  - cbn. split; cbn; try reflexivity; [constructor|]. intros h. unfold writer. cbn. destruct h; reflexivity.
  - unfold fs_run. cbn [rev]. rewrite fold_left_app. cbn [fold_left]. apply step_reached. exact IH.
Qed.

Lemma untouched p past o : touches p past o = false -> content p (o :: past) = content p past.
Proof.
  destruct o as [q d|q|h d|h|h|q| |q r|q]; cbn [touches content]; try reflexivity; try discriminate.
  - destruct (eqp q p); [discriminate|reflexivity].
  - destruct (open_writer h past) as [q|]; [destruct (eqp q p); [discriminate|]|]; reflexivity.
  - destruct (open_writer h past) as [q|]; [destruct (eqp q p); [discriminate|]|]; reflexivity.
  - destruct (eqp q p); [discriminate|reflexivity].
  - destruct (eqp q p); [discriminate|]. destruct (eqp r p); [discriminate|]. destruct (content q past); reflexivity.
Qed.

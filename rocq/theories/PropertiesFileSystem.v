(** C30: the in-memory file system. *)
From Verif Require Import Base Sound FileSystem SpecFileSystem FileSystemFacts.

(** After every history of calls (of any number of threads and writers) every path holds the content that was stored under it
    last, for all ways to look at it; [content] is defined on the history alone. *)
Theorem C30_history : forall history p, let past := rev history in
  fs_get_file p (fs_run history) = content p past /\
  fs_read_file p (fs_run history) = match content p past with Some d => Ok d | None => Err end /\
  fs_exists p (fs_run history) = match content p past with Some _ => true | None => false end /\
  (In p (fs_list_files (fs_run history)) <-> content p past <> None) /\
  NoDup (fs_list_files (fs_run history)).
Proof.
  intros history p past. destruct (run_reached history) as [K C L W]. fold past in C.
  unfold fs_get_file, fs_read_file, fs_exists, fs_list_files. rewrite C.
  repeat (split; [reflexivity|]). split; [|exact K]. rewrite <- hget_In, C. reflexivity.
Qed.
Print Assumptions C30_history.
(** A file that was written is read back, whatever other files are stored, removed, renamed or opened afterwards. *)
Theorem C30_last_write : forall before p d after,
  (forall earlier o later, after = earlier ++ o :: later -> touches p (rev (before ++ WriteFile p d :: earlier)) o = false) ->
  fs_read_file p (fs_run (before ++ WriteFile p d :: after)) = Ok d.
Proof.
  intros before p d after T. destruct (C30_history (before ++ WriteFile p d :: after) p) as (_ & -> & _).
  enough (E : content p (rev (before ++ WriteFile p d :: after)) = Some d) by (rewrite E; reflexivity).
  induction after as [|o after IH] using rev_ind.
  - rewrite rev_app_distr. cbn [rev app content]. destruct (list_eq_dec N.eq_dec p p); [reflexivity|contradiction].
  - rewrite app_comm_cons, app_assoc, rev_app_distr. cbn [rev app]. rewrite untouched.
    + apply IH. intros e o' l ->. apply (T e o' (l ++ [o])). rewrite <- app_assoc. reflexivity.
    + apply (T after o []). reflexivity.
Qed.
Print Assumptions C30_last_write.
(** What is written through a writer in any number of pieces is one file when the writer is dropped, no matter what happens
    in between to other files and writers (another writer for the same path included). *)
Theorem C30_writer : forall before p between, let past := rev (before ++ CreateFile p :: between) in
  let h := List.length (created (rev before)) in
  ~ In (WriterDrop h) between ->
  fs_read_file p (fs_run (before ++ CreateFile p :: between ++ [WriterDrop h])) =
  Ok (flat_map (fun o => match o with WriterWrite k d => if Nat.eqb k h then d else [] | _ => [] end) between).
Proof.
  intros before p between past h ND.
  destruct (C30_history (before ++ CreateFile p :: between ++ [WriterDrop h]) p) as (_ & -> & _).
  replace (rev (before ++ CreateFile p :: between ++ [WriterDrop h])) with (WriterDrop h :: past)
    by (unfold past; rewrite app_comm_cons, app_assoc, (rev_app_distr (before ++ _)); reflexivity).
  assert (G : (exists t, created past = created (rev before) ++ p :: t) /\ dropped h past = false /\
    written h past = flat_map (fun o => match o with WriterWrite k d => if Nat.eqb k h then d else [] | _ => [] end) between).
  { unfold past. clear past. induction between as [|o between IH] using rev_ind.
    - rewrite rev_app_distr. cbn [rev app created dropped written flat_map]. split; [exists []; reflexivity|].
      assert (B : Nat.ltb h (List.length (created (rev before))) = false) by (apply Nat.ltb_ge; unfold h; lia).
      split; [|apply not_created_unwritten, B]. destruct (dropped h (rev before)) eqn:D; [|reflexivity]. apply dropped_lt in D. congruence.
    - destruct IH as ((t & E) & D & Wr); [intros H; apply ND; apply in_or_app; left; exact H|].
      rewrite app_comm_cons, app_assoc, rev_app_distr. cbn [rev app]. rewrite flat_map_app. cbn [flat_map]. rewrite app_nil_r.
      set (q := rev (before ++ CreateFile p :: between)) in *.
      assert (B : Nat.ltb h (List.length (created q)) = true) by (apply Nat.ltb_lt; rewrite E, app_length; unfold h; cbn; lia).
      destruct o as [x d|x|k d|k|k|x| |x y|x]; cbn [created dropped written]; rewrite ?app_nil_r;
        try (split; [exists t; exact E|split; [exact D|exact Wr]]).
      + split; [exists (t ++ [x]); rewrite E, <- app_assoc; reflexivity|split; [exact D|exact Wr]].
      + split; [exists t; exact E|split; [exact D|]]. rewrite Wr, B, andb_true_r. reflexivity.
      + destruct (Nat.eqb_spec k h) as [->|N]; [exfalso; apply ND; apply in_or_app; right; left; reflexivity|].
        split; [exists t; exact E|split; [exact D|exact Wr]]. }
  destruct G as ((t & E) & D & Wr). cbn [content]. unfold open_writer. rewrite D, E, nth_error_app2 by (unfold h; lia).
  unfold h at 1. rewrite Nat.sub_diag. cbn [nth_error]. destruct (list_eq_dec N.eq_dec p p); [|contradiction]. rewrite Wr. reflexivity.
Qed.
Print Assumptions C30_writer.
(** Two writers on one path, a delete while they are open, a rename over an existing file *)
Example C30_example :
  let a := lit "/t/a" in let b := lit "/t/b" in
  let history := [CreateFile a; WriteFile b [x01]; CreateFile a; WriterWrite 0 [x0a]; WriterWrite 1 [x0b]; WriterFlush 0;
                  WriterWrite 0 [x0c]; DeleteFile a; WriterDrop 1; Rename b a; WriterDrop 0; WriteFile b []] in
  fs_read_file a (fs_run history) = Ok [x0a; x0c] /\ fs_read_file b (fs_run history) = Ok [] /\
  fs_read_file a (fs_run (firstn 9 history)) = Ok [x0b] /\ fs_read_file a (fs_run (firstn 10 history)) = Ok [x01] /\
  fs_exists b (fs_run (firstn 10 history)) = false /\ fs_exists a (fs_run (firstn 5 history)) = false /\
  (forall earlier o later, [CreateFile a; WriterDrop 0] = earlier ++ o :: later ->
     touches b (rev ([] ++ WriteFile b [x01] :: earlier)) o = false) /\
  ~ In (WriterDrop 0) [WriterWrite 0 [x0a]; CreateFile a; WriterDrop 1].
Proof.
  cbv zeta. repeat (split; [reflexivity|]). split.
  - intros [|x [|y [|z e]]] o l [=]; subst; reflexivity.
  - intros [H|[H|[H|[]]]]; discriminate.
Qed.
(** The full statement compares with the disk, where creating a file makes it exist at once; here it exists only when its
    writer is flushed or dropped, and paths are compared as they are spelt. *)
Theorem C30_create_refuted : exists p, fs_exists p (fs_run [CreateFile p]) = false.
Proof. exists (lit "a"). reflexivity. Qed.
Print Assumptions C30_create_refuted.
Theorem C30_spelling_refuted : exists p q d, path_components p = path_components q /\
  fs_read_file p (fs_run [WriteFile p d]) = Ok d /\ fs_read_file q (fs_run [WriteFile p d]) = Err.
Proof. exists (lit "a/b"), (lit "a//./b"), [x01]. repeat split. Qed.
Print Assumptions C30_spelling_refuted.

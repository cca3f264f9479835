(** C29: compacting a file. *)
From Coq Require Import Permutation.
From Verif Require Import Base Text Biff Image Sound Cfb TableInfo Vpx SpecVpx Compact SpecCompact.
From Verif Require Import BaseFacts SoundFacts CfbFacts TableInfoFacts CompactFacts.

(** A file on disk that holds the complete table [f] *)
Definition holds (up : N -> N) (f : cfile) (c : option fcontent) : Prop := exists g, c = Some (Whole g) /\ same_table up f g.

(** Whatever the table, the order in which its entries are visited and the moment of the crash: the file or its temporary copy
    holds the complete table, and no third file is touched.  When compacting ends, it has succeeded, the file holds the table and
    there is no temporary file.  The file's name must not end in ".compacting" already. *)
Theorem C29_crash_safe : forall up walk p d f, sound_file up f -> Permutation (walk f) f -> parents_first up (walk f) ->
  d p = Some (Whole f) -> (forall stem, snd p <> stem ++ lit ".compacting") ->
  let temporary := with_extension (lit "compacting") p in
  Forall (fun s => (holds up f (s p) \/ holds up f (s temporary)) /\ forall q, q <> p -> q <> temporary -> s q = d q)
         (fst (compact up walk p d)) /\
  snd (compact up walk p d) = Ok tt /\
  holds up f (last (fst (compact up walk p d)) d p) /\ last (fst (compact up walk p d)) d temporary = None.
Proof.
  intros up walk p d f Sf Pm PF Hd Hn tmp.
  destruct (copy_ok up walk f Sf Pm PF) as (g & Eg & Sg & _).
  assert (N : tmp <> p). { intros E. apply (Hn (file_stem (snd p))). rewrite <- E at 1. reflexivity. }
  assert (Nb : dpath_eqb tmp p = false) by (destruct (dpath_eqb tmp p) eqn:E; [apply dpath_eqb_eq in E; contradiction|reflexivity]).
  assert (Refl : same_table up f f) by (split; [apply Permutation_refl|reflexivity]).
  unfold compact. rewrite Hd. fold tmp. rewrite Nb, Eg. cbn [fst snd last].
  assert (Hf : holds up f (d p)) by (exists f; auto).
  assert (Hg : holds up f (Some (Whole g))) by (exists g; auto).
  split; [|split; [reflexivity|split]].
  - repeat apply Forall_cons; [..|apply Forall_nil]; (split; [|intros q Nq Nt; rewrite ?dset_other by congruence; reflexivity]).
    + left. exact Hf.
    + left. rewrite dset_other by congruence. exact Hf.
    + left. rewrite !dset_other by congruence. exact Hf.
    + right. rewrite dset_other, dset_same by congruence. exact Hg.
    + left. rewrite dset_other, dset_same by congruence. rewrite dset_other, dset_same by congruence. exact Hg.
  - rewrite dset_other, dset_same by congruence. rewrite dset_other, dset_same by congruence. exact Hg.
  - apply dset_same.
Qed.
Print Assumptions C29_crash_safe.
(** If compacting fails, whatever the file was, it is as before (at every crash point, too). *)
Theorem C29_failure : forall up walk p d e, (forall stem, snd p <> stem ++ lit ".compacting") ->
  snd (compact up walk p d) = Fail e ->
  Forall (fun s => forall q, q <> with_extension (lit "compacting") p -> s q = d q) (fst (compact up walk p d)).
Proof.
  intros up walk p d e Hn. unfold compact. set (tmp := with_extension (lit "compacting") p).
  assert (N : tmp <> p). { intros E. apply (Hn (file_stem (snd p))). rewrite <- E at 1. reflexivity. }
  assert (G : Forall (fun s : disk => forall q, q <> tmp -> s q = d q) [d; dset tmp (Some Torn) d]).
  { apply Forall_cons; [reflexivity|]. apply Forall_cons; [|apply Forall_nil]. intros q Nq. apply dset_other. congruence. }
  destruct (d p) as [[f|]|] eqn:Hd; try (intros _; apply Forall_cons; [reflexivity|apply Forall_nil]).
  destruct (dpath_eqb tmp p); [intros _; exact G|]. destruct (copy up walk f); [discriminate|intros _; exact G].
Qed.
Print Assumptions C29_failure.
(** What is in the two files is the same for every reader of this crate: the table that is read, the verification of its code, the
    script and the lock state.  ([order], the order in which a storage lists its entries, depends on the names only: the entries
    of a storage are a sorted tree.) *)
Theorem C29_same_reads : forall up f g, same_table up f g -> forall checked,
  (forall order, (forall l l', Permutation l l' -> order l = order l') -> read_vpx up order checked f = read_vpx up order checked g) /\
  (forall md2, verify up md2 checked f = verify up md2 checked g) /\
  extract_script up checked f = extract_script up checked g /\ file_is_locked up checked f = file_is_locked up checked g.
Proof.
  intros up f g S checked. split; [intros order Ho; apply same_read; assumption|]. split; [intros md2; apply same_verify, S|].
  apply same_readers, S.
Qed.
Print Assumptions C29_same_reads.
Definition example_file : cfile :=
  [([lit "GameStg"], Storage); ([lit "GameStg"; lit "Version"], Stream [x38; x04; x00; x00]); ([lit "TableInfo"], Storage);
   ([lit "GameStg"; lit "MAC"], Stream []); ([lit "TableInfo"; lit "TableName"], Stream [x41; x00])].
Definition example_path : dpath := (lit "/tables", lit "my.table.vpx").
Example C29_example : forall up, sound_file up example_file /\ parents_first up (rev (rev example_file)) /\
  (forall stem, snd example_path <> stem ++ lit ".compacting") /\
  with_extension (lit "compacting") example_path = (lit "/tables", lit "my.table.compacting") /\
  exists g, copy up (@id cfile) example_file = Ok g /\ g <> example_file.
Proof.
  intros up.
  assert (SN : Forall stream_name [lit "GameStg"; lit "Version"; lit "TableInfo"; lit "MAC"; lit "TableName"]).
  { assert (NI : forall c l, existsb (N.eqb c) l = false -> ~ In c l).
    { intros c l H Hi. apply not_true_iff_false in H. apply H. apply existsb_exists. exists c. split; [exact Hi|apply N.eqb_refl]. }
    repeat apply Forall_cons; [..|apply Forall_nil]; (split; [split; [discriminate|split; [discriminate|split; [discriminate|apply NI; reflexivity]]]|
      split; [apply NI; reflexivity|split; [apply NI; reflexivity|split; [apply NI; reflexivity|vm_compute; discriminate]]]]). }
  pose proof (proj1 (Forall_forall _ _) SN) as SN'.
  assert (P1 : stream_name (lit "GameStg")) by (apply SN'; cbn; tauto).
  assert (P2 : stream_name (lit "Version")) by (apply SN'; cbn; tauto).
  assert (P3 : stream_name (lit "TableInfo")) by (apply SN'; cbn; tauto).
  assert (P4 : stream_name (lit "MAC")) by (apply SN'; cbn; tauto).
  assert (P5 : stream_name (lit "TableName")) by (apply SN'; cbn; tauto).
  split; [|split; [|split; [|split; [reflexivity|]]]].
  - split; [|split].
    + repeat apply Forall_cons; [..|apply Forall_nil]; cbn [fst]; (split; [discriminate|]); repeat apply Forall_cons; try apply Forall_nil; assumption.
    + repeat apply NoDup_cons; try apply NoDup_nil; cbn [In map fst example_file]; intros H; repeat (destruct H as [H|H]; [discriminate H|]); exact H.
    + repeat apply Forall_cons; [..|apply Forall_nil]; cbn [fst removelast]; try (left; reflexivity); right;
        [exists [lit "GameStg"]|exists [lit "GameStg"]|exists [lit "TableInfo"]]; (split; [cbn [In example_file]; tauto|reflexivity]).
  - rewrite rev_involutive. intros before e after H.
    do 5 (destruct before as [|? before];
      [injection H as <- <-; first [left; reflexivity|right; exists [lit "GameStg"]; split; [cbn [In]; tauto|reflexivity]
                                   |right; exists [lit "TableInfo"]; split; [cbn [In]; tauto|reflexivity]]
      |injection H as <- H]).
    destruct before; discriminate.
  - intros stem E. apply (f_equal (fun l => hd 0%N (rev l))) in E. rewrite rev_app_distr in E. discriminate E.
  - eexists. split; [vm_compute; reflexivity|]. discriminate.
Qed.
(** Between removing the file and renaming the copy there is a crash point at which no file has the table's name. *)
Theorem C29_name_missing_refuted : exists p d f s, d p = Some (Whole f) /\ (forall stem, snd p <> stem ++ lit ".compacting") /\
  In s (fst (compact id (@id cfile) p d)) /\ s p = None.
Proof.
  set (d := fun q => if dpath_eqb q example_path then Some (Whole []) else None).
  exists example_path, d, [], (nth 3 (fst (compact id (@id cfile) example_path d)) d).
  split; [reflexivity|]. split; [apply (C29_example id)|]. split; [right; right; right; left; reflexivity|reflexivity].
Qed.
Print Assumptions C29_name_missing_refuted.
(** For a file whose extension is "compacting" already, the temporary file is the file itself: it is emptied before it is
    copied, and nothing holds the table any more. *)
Theorem C29_same_name_refuted : exists p d f s, d p = Some (Whole f) /\ sound_file id f /\ f <> [] /\
  In s (fst (compact id (@id cfile) p d)) /\ forall q g, s q <> Some (Whole g).
Proof.
  set (p := (lit "/tables", lit "t.compacting")). set (d := fun q => if dpath_eqb q p then Some (Whole example_file) else None).
  exists p, d, example_file, (dset p (Some Torn) d).
  split; [reflexivity|]. split; [apply C29_example|]. split; [discriminate|]. split; [right; left; reflexivity|].
  intros q g. unfold dset. destruct (dpath_eqb p q) eqn:E; [discriminate|]. unfold d.
  destruct (dpath_eqb q p) eqn:E'; [apply dpath_eqb_eq in E'; subst q; rewrite (proj2 (dpath_eqb_eq p p) eq_refl) in E; discriminate|discriminate].
Qed.
Print Assumptions C29_same_name_refuted.

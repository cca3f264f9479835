(** Facts about compacting. *)
From Coq Require Import Permutation.
From Verif Require Import Base Text Biff Image Sound Cfb SpecVpx Compact SpecCompact TableInfo Vpx BaseFacts SoundFacts CfbFacts TableInfoFacts.

Definition is_storage (e : cpath * node) : bool := match snd e with Storage => true | _ => false end.

Lemma NoDup_app_remove_r {A} (l m : list A) : NoDup (l ++ m) -> NoDup l.
Proof.
  induction l as [|x l IH]; cbn; intros H; [constructor|]. inversion H as [|? ? N H']; subst.
  constructor; [|apply IH, H']. intros K. apply N. apply in_or_app. left. exact K.
Qed.
Lemma NoDup_app_remove_l {A} (l m : list A) : NoDup (l ++ m) -> NoDup m.
Proof. induction l as [|x l IH]; cbn; intros H; [exact H|]. inversion H; subst. apply IH. assumption. Qed.

Lemma stream_name_chain p : Forall stream_name p -> name_chain [] p = Ok p.
Proof.
  intros H. assert (G : forall acc, name_chain acc p = Ok (rev acc ++ p)); [|apply (G [])].
  induction H as [|s p Hs Hp IH]; intros acc; cbn [name_chain]; [rewrite app_nil_r; reflexivity|].
  destruct Hs as ((N1 & N2 & N3 & _) & _).
  rewrite (rstring_eqb_neq s [] N1), (rstring_eqb_neq s [dot] N2), (rstring_eqb_neq s [dot; dot] N3).
  cbn [orb]. rewrite IH. cbn [rev]. rewrite <- app_assoc. reflexivity.
Qed.
Lemma stream_name_last p : p <> [] -> Forall stream_name p -> valid_stream_name (last p []) = true.
Proof.
  intros N H. apply stream_name_valid. destruct (@exists_last _ p N) as (q & x & ->). rewrite last_last.
  apply Forall_app in H. destruct H as [_ H]. inversion H; assumption.
Qed.

Section Copy.
Variable up : N -> N.
Local Notation fpath := (fpath up).
Local Notation keys := (keys up).

Lemma fpath_nil p : fpath p = [] -> p = [].
Proof. destruct p; [reflexivity|discriminate]. Qed.

Lemma parent_node f g p : NoDup (keys g) -> (forall e, In e f -> is_storage e = true -> In e g) ->
  Forall (fun e => fst e <> []) f ->
  (removelast p = [] \/ exists q, In (q, Storage) f /\ fpath (removelast p) = fpath q) -> cf_node up (removelast p) g = Some Storage.
Proof.
  intros ND Sub NE [E|(q & Hq & E)]; [rewrite E; reflexivity|].
  assert (Nq : q <> []) by (apply (proj1 (Forall_forall _ _) NE (q, Storage) Hq)).
  assert (Np : removelast p <> []) by (intros Z; rewrite Z in E; symmetry in E; apply fpath_nil in E; contradiction).
  rewrite cf_node_find by exact Np. rewrite (cf_find_fpath up _ q) by exact E.
  apply cf_find_in; [exact ND|]. apply Sub; [exact Hq|reflexivity].
Qed.

Lemma keys_filter_nodup (P : cpath * node -> bool) f : NoDup (keys f) -> NoDup (keys (filter P f)).
Proof.
  unfold CfbFacts.keys. induction f as [|e f IH]; cbn [filter map]; intros H; [constructor|]. inversion H as [|? ? N H']; subst.
  destruct (P e); cbn [map]; [|apply IH, H']. constructor; [|apply IH, H']. intros K. apply N. apply in_map_iff in K.
  destruct K as (x & E & Hx). apply filter_In in Hx. rewrite <- E. apply (in_map (fun e => fpath (fst e))). tauto.
Qed.
Lemma fresh_key (P : cpath * node -> bool) before e after : NoDup (keys (before ++ e :: after)) -> ~ In (fpath (fst e)) (keys (filter P before)).
Proof.
  unfold CfbFacts.keys. rewrite map_app. cbn [map]. intros H K. apply NoDup_remove_2 in H. apply H. apply in_or_app. left.
  apply in_map_iff in K. destruct K as (x & E & Hx). rewrite <- E. apply filter_In in Hx. apply (in_map (fun e => fpath (fst e))). tauto.
Qed.

Definition entry_ok (e : cpath * node) : Prop := fst e <> [] /\ Forall stream_name (fst e).

Lemma copy_storages_ok after : forall before, let l := before ++ after in
  Forall entry_ok l -> NoDup (keys l) -> parents_first up l ->
  copy_storages up after (filter is_storage before) = Ok (filter is_storage l).
Proof.
  induction after as [|[p n] after IH]; intros before l Hok ND PF; unfold l in *; clear l; [cbn; rewrite app_nil_r; reflexivity|].
  assert (E : before ++ (p, n) :: after = (before ++ [(p, n)]) ++ after) by (rewrite <- app_assoc; reflexivity).
  assert (Hp : entry_ok (p, n)) by (apply (proj1 (Forall_forall _ _) Hok); apply in_or_app; right; left; reflexivity).
  destruct Hp as [Np Hp]. cbn [fst] in *.
  destruct n as [|d]; cbn [copy_storages].
  - rewrite (stream_name_chain p Hp). cbn [rbind].
    rewrite cf_create_storage_new; [|exact Np|apply (fresh_key is_storage before (p, Storage) after ND)| |apply stream_name_last; assumption].
    + cbn [rbind]. rewrite E. rewrite <- (IH (before ++ [(p, Storage)])); [|rewrite <- E; assumption..].
      rewrite filter_app. reflexivity.
    + eapply (parent_node before).
      * apply keys_filter_nodup. unfold CfbFacts.keys in *. rewrite map_app in ND. apply NoDup_app_remove_r in ND. exact ND.
      * intros e He Hs. apply filter_In. tauto.
      * apply Forall_forall. intros e He. apply (proj1 (Forall_forall _ _) Hok e). apply in_or_app. tauto.
      * apply (PF before (p, Storage) after eq_refl).
  - rewrite E. rewrite <- (IH (before ++ [(p, Stream d)])); [|rewrite <- E; assumption..]. rewrite filter_app. cbn. rewrite app_nil_r. reflexivity.
Qed.

Lemma copy_streams_ok f after : forall before, let l := before ++ after in
  Permutation l f -> Forall entry_ok l -> NoDup (keys l) -> parents_first up l ->
  copy_streams up f after (filter is_storage l ++ filter (fun e => negb (is_storage e)) before) =
  Ok (filter is_storage l ++ filter (fun e => negb (is_storage e)) l).
Proof.
  induction after as [|[p n] after IH]; intros before l Pm Hok ND PF; unfold l in *; clear l; [cbn; rewrite app_nil_r; reflexivity|].
  assert (E : before ++ (p, n) :: after = (before ++ [(p, n)]) ++ after) by (rewrite <- app_assoc; reflexivity).
  assert (Hin : In (p, n) (before ++ (p, n) :: after)) by (apply in_or_app; right; left; reflexivity).
  pose proof (proj1 (Forall_forall _ _) Hok _ Hin) as [Np Hp]. cbn [fst] in *.
  destruct n as [|d]; cbn [copy_streams].
  - pose proof (IH (before ++ [(p, Storage)])) as H. cbv zeta in H. rewrite <- E in H.
    rewrite (filter_app (fun e => negb (is_storage e)) before) in H. cbn [filter is_storage snd negb] in H. rewrite app_nil_r in H.
    apply H; assumption.
  - rewrite (stream_name_chain p Hp). cbn [rbind]. unfold cf_get.
    rewrite (cf_node_in up p (Stream d)); [|exact Np| |].
    2: { apply (Permutation_NoDup (l := keys (before ++ (p, Stream d) :: after))); [apply Permutation_map, Pm|exact ND]. }
    2: { apply (Permutation_in _ Pm Hin). }
    cbn [rbind]. rewrite cf_store_new; [|exact Np| | |apply stream_name_last; assumption].
    + cbn [rbind]. pose proof (IH (before ++ [(p, Stream d)])) as H. cbv zeta in H. rewrite <- E in H.
      rewrite (filter_app (fun e => negb (is_storage e)) before) in H. cbn [filter is_storage snd negb] in H. rewrite app_assoc in H.
      apply H; assumption.
    + rewrite keys_app. intros K. apply in_app_or in K. destruct K as [K|K]; [|revert K; apply (fresh_key _ before (p, Stream d) after ND)].
      rewrite filter_app, keys_app in K. apply in_app_or in K. destruct K as [K|K]; [revert K; apply (fresh_key _ before (p, Stream d) after ND)|].
      cbn [filter is_storage snd] in K. unfold CfbFacts.keys in *. rewrite map_app in ND. apply NoDup_app_remove_l in ND.
      cbn [map] in ND. inversion ND as [|? ? N' _]; subst. apply N'. apply in_map_iff in K.
      destruct K as (x & Ex & Hx). apply filter_In in Hx. cbn [fst] in *. rewrite <- Ex. apply (in_map (fun e => fpath (fst e))). tauto.
    + eapply (parent_node (before ++ (p, Stream d) :: after)).
      * set (l := before ++ (p, Stream d) :: after) in *.
        apply (NoDup_app_remove_r _ (keys (filter (fun e => negb (is_storage e)) ((p, Stream d) :: after)))).
        rewrite <- keys_app, <- app_assoc, <- filter_app. fold l.
        apply (Permutation_NoDup (l := keys l)); [|exact ND]. apply Permutation_map. clear. induction l as [|e l IH]; [constructor|].
        cbn [filter]. destruct (is_storage e); cbn [negb app]; [constructor; exact IH|]. apply Permutation_cons_app. exact IH.
      * intros e He Hs. apply in_or_app. left. apply filter_In. tauto.
      * apply Forall_forall. intros e He. apply (proj1 (Forall_forall _ _) Hok e He).
      * destruct (PF before (p, Stream d) after eq_refl) as [Z|(q & Hq & Eq)]; [left; exact Z|right; exists q; split; [|exact Eq]].
        apply in_or_app. left. exact Hq.
Qed.

Lemma partition_perm {A} (P : A -> bool) l : Permutation (filter P l ++ filter (fun e => negb (P e)) l) l.
Proof.
  induction l as [|e l IH]; [constructor|]. cbn [filter]. destruct (P e); cbn [negb app]; [constructor; exact IH|].
  symmetry. apply Permutation_cons_app. symmetry. exact IH.
Qed.

Lemma perm_same f g : NoDup (keys f) -> Permutation f g -> same_table up f g.
Proof.
  intros ND P. split; [exact P|].
  assert (ND' : NoDup (keys g)) by (apply (Permutation_NoDup (l := keys f)); [apply Permutation_map, P|exact ND]).
    intros p. destruct p as [|x p]; [reflexivity|]. rewrite !cf_node_find by discriminate. set (q := x :: p).
    destruct (cf_find up q f) as [n|] eqn:E.
    + apply cf_find_some in E. destruct E as (r & Hr & Er). symmetry. rewrite (cf_find_fpath up q r) by exact Er.
      apply cf_find_in; [exact ND'|apply (Permutation_in _ P Hr)].
    + symmetry. apply cf_find_none. apply cf_find_none in E. intros K. apply E.
      apply (Permutation_in (l := keys g)); [apply Permutation_map, Permutation_sym, P|exact K].
Qed.

Lemma copy_ok walk f : sound_file up f -> Permutation (walk f) f -> parents_first up (walk f) ->
  exists g, copy up walk f = Ok g /\ same_table up f g /\ sound_file up g.
Proof.
  intros (Hok & ND & Par) Pm PF. unfold copy.
  assert (Hok' : Forall entry_ok (walk f)).
  { apply Forall_forall. intros e He. apply (proj1 (Forall_forall _ _) Hok e). apply (Permutation_in _ Pm He). }
  assert (ND' : NoDup (keys (walk f))).
  { apply (Permutation_NoDup (l := keys f)); [apply Permutation_map, Permutation_sym, Pm|exact ND]. }
  pose proof (copy_storages_ok (walk f) [] Hok' ND' PF) as E1. cbn [app filter] in E1. rewrite E1. cbn [rbind].
  pose proof (copy_streams_ok f (walk f) [] Pm Hok' ND' PF) as E2. cbn [app filter] in E2. rewrite app_nil_r in E2. rewrite E2.
  set (g := filter is_storage (walk f) ++ filter (fun e => negb (is_storage e)) (walk f)).
  assert (P : Permutation f g) by (transitivity (walk f); [symmetry; exact Pm|symmetry; apply partition_perm]).
  exists g. split; [reflexivity|]. split; [apply perm_same; assumption|].
  split; [|split].
  - apply Forall_forall. intros e He. apply (proj1 (Forall_forall _ _) Hok e). apply (Permutation_in _ (Permutation_sym P) He).
  - apply (Permutation_NoDup (l := keys f)); [apply Permutation_map, P|exact ND].
  - apply Forall_forall. intros e He. pose proof (proj1 (Forall_forall _ _) Par e (Permutation_in _ (Permutation_sym P) He)) as [Z|(q & Hq & Eq)];
      [left; exact Z|right; exists q; split; [apply (Permutation_in _ P Hq)|exact Eq]].
Qed.
End Copy.

Lemma dpath_eqb_eq p q : dpath_eqb p q = true <-> p = q.
Proof.
  unfold dpath_eqb. destruct p as [a b], q as [c e]. cbn [fst snd]. rewrite andb_true_iff, !rstring_eqb_eq. split; [intros [-> ->]; reflexivity|intros [= -> ->]; auto].
Qed.
Lemma dset_same p c d : dset p c d p = c.
Proof. unfold dset. rewrite (proj2 (dpath_eqb_eq p p) eq_refl). reflexivity. Qed.
Lemma dset_other p q c d : p <> q -> dset p c d q = d q.
Proof. intros N. unfold dset. destruct (dpath_eqb p q) eqn:E; [apply dpath_eqb_eq in E; contradiction|reflexivity]. Qed.

(** ** Readers do not see the order of the entries *)
Section Readers.
Variables (up : N -> N) (f g : cfile).
Hypothesis Same : same_table up f g.
Local Lemma same_node p : cf_node up p f = cf_node up p g. Proof. apply Same. Qed.
Lemma same_get p : cf_get up p f = cf_get up p g. Proof. unfold cf_get. rewrite same_node. reflexivity. Qed.
Lemma same_exists p : cf_exists up p f = cf_exists up p g. Proof. unfold cf_exists. rewrite same_node. reflexivity. Qed.
Lemma same_numbered {A} (read : bytes -> res A) prefix n : forall i, read_numbered up read prefix i n f = read_numbered up read prefix i n g.
Proof.
  induction n as [|n IH]; intros i; [reflexivity|]. cbn [read_numbered]. rewrite same_get.
  destruct (cf_get up (stream_path prefix i) g) as [d|]; cbn [rbind]; [|reflexivity]. destruct (read d); cbn [rbind]; [|reflexivity].
  rewrite IH. reflexivity.
Qed.
Lemma same_mac_bytes p : mac_bytes up p f = mac_bytes up p g.
Proof. unfold mac_bytes. rewrite same_exists, same_get. reflexivity. Qed.
Lemma same_mac_biff p checked : mac_biff up p checked f = mac_biff up p checked g.
Proof. unfold mac_biff. rewrite same_exists, same_get. reflexivity. Qed.
Lemma same_mac_property t acc r : mac_property up f t acc r = mac_property up g t acc r.
Proof.
  unfold mac_property. destruct (t =? "CUST")%string; [|reflexivity]. unfold rbindM. destruct (get_string r) as [[name r']|]; [|reflexivity].
  destruct (formatted_chain TableInfoStg name) as [p|]; [|reflexivity]. rewrite same_exists, same_get. reflexivity.
Qed.
Lemma same_mac_properties checked : mac_properties up checked f = mac_properties up checked g.
Proof.
  unfold mac_properties. rewrite same_exists, same_get.
  destruct (cf_exists up [GameStg; lit "CustomInfoTags"] g); [|reflexivity].
  destruct (cf_get up [GameStg; lit "CustomInfoTags"] g) as [d|]; [|reflexivity]. cbn [rbind]. unfold run_eof_loop.
  assert (E : forall fuel s r, eof_loop fuel (mac_property up f) s r = eof_loop fuel (mac_property up g) s r).
  { induction fuel as [|fuel IH]; intros s r; [reflexivity|]. cbn [eof_loop]. unfold rbindM.
    repeat match goal with |- context [match ?x with _ => _ end] => match x with context [mac_property] => fail 1 | _ => destruct x; try reflexivity end end.
    all: rewrite ?same_mac_property; try reflexivity.
    all: repeat match goal with |- context [match ?x with _ => _ end] => destruct x; try reflexivity end.
    all: apply IH. }
  rewrite E. reflexivity.
Qed.
Lemma same_mac_collections fuel checked : forall i, mac_collections up fuel i checked f = mac_collections up fuel i checked g.
Proof.
  induction fuel as [|fuel IH]; intros i; [reflexivity|]. cbn [mac_collections]. rewrite same_exists, same_get.
  destruct (cf_exists up (stream_path "Collection" i) g); [|reflexivity]. destruct (cf_get up (stream_path "Collection" i) g); cbn [rbind]; [|reflexivity].
  destruct (run_eof_loop mac_record [] checked a); cbn [rbind]; [|reflexivity]. rewrite IH. reflexivity.
Qed.
Lemma same_mac md2 checked : generate_mac up md2 checked f = generate_mac up md2 checked g.
Proof.
  unfold generate_mac, mac_content. rewrite !same_mac_bytes, !same_mac_biff, same_mac_properties, same_mac_collections.
  rewrite (Permutation_length (proj1 Same)). reflexivity.
Qed.
Lemma same_verify md2 checked : verify up md2 checked f = verify up md2 checked g.
Proof. unfold verify, read_mac. rewrite same_exists, same_get, same_mac. reflexivity. Qed.
Lemma same_children p : Permutation (cf_children up p f) (cf_children up p g).
Proof.
  unfold cf_children. destruct Same as [P _]. clear Same. induction P as [|e l l' P IH|e e' l|l l' l'' P1 IH1 P2 IH2]; cbn [flat_map].
  - constructor.
  - apply Permutation_app_head, IH.
  - rewrite !app_assoc. apply Permutation_app_tail, Permutation_app_comm.
  - etransitivity; eassumption.
Qed.
Lemma same_read order checked : (forall l l', Permutation l l' -> order l = order l') ->
  read_vpx up order checked f = read_vpx up order checked g.
Proof.
  intros Ho. unfold read_vpx, read_custominfotags, read_version, read_gamedata, read_tableinfo, cf_read_storage, cf_is_stream.
  rewrite !same_get, !same_node.
  replace (order (cf_children up [TableInfoStg] f)) with (order (cf_children up [TableInfoStg] g)) by (apply Ho, Permutation_sym, same_children).
  destruct (cf_node up [TableInfoStg] g) as [[|d]|]; cbn [unwrap rbind].
  all: try rewrite (Ho _ _ (same_children [TableInfoStg])).
  all: repeat match goal with
       | |- rbind ?x _ = rbind ?x _ => destruct x as [?|?]; cbn [rbind]; [|reflexivity]
       | |- rbind (read_numbered up ?r ?p ?i ?n f) _ = _ => rewrite (same_numbered r p n i)
       end; try reflexivity.
Qed.
Lemma same_readers checked : extract_script up checked f = extract_script up checked g /\ file_is_locked up checked f = file_is_locked up checked g.
Proof.
  unfold extract_script, file_is_locked, file_read_gamedata, read_version, read_gamedata. rewrite !same_get. split; reflexivity.
Qed.
End Readers.

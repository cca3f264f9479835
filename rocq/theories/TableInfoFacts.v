(** Proofs about the table information and the file version. *)
From Verif Require Import Base Text Biff Image Sound Cfb TableInfo SpecBiff SpecVpx.
From Verif Require Import BaseFacts TextFacts RecordFacts SoundFacts CfbFacts.
From Coq Require Import Permutation.

Lemma bind_assoc {A B C} (m : res A) (k : A -> res B) (h : B -> res C) :
  (y <~ (x <~ m ;; k x) ;; h y) = (x <~ m ;; y <~ k x ;; h y).
Proof. destruct m; reflexivity. Qed.

Lemma NoDup_app_l {A} (a b : list A) : NoDup (a ++ b) -> NoDup a.
Proof.
  induction a as [|x a IH]; intros H; [constructor|]. cbn in H. inversion H as [|k ks H1 H2]; subst. constructor; [|apply IH, H2].
  intros Hin. apply H1, in_or_app. left. exact Hin.
Qed.
Lemma NoDup_app_r {A} (a b : list A) : NoDup (a ++ b) -> NoDup b.
Proof. induction a as [|x a IH]; intros H; [exact H|]. apply IH. cbn in H. inversion H; assumption. Qed.
Lemma stream_name_valid s : stream_name s -> valid_stream_name s = true.
Proof.
  intros ((_ & _ & _ & H1) & H2 & H3 & H4 & H5). unfold valid_stream_name.
  assert (L : zlen (encode_utf16le s) = 2 * zlen (flat_map char_utf16 s)).
  { unfold encode_utf16le. clear. generalize (flat_map char_utf16 s). induction l as [|a l IH]; [reflexivity|].
    cbn [flat_map]. rewrite zlen_app, IH, zlen_cons. destruct (Z_to_w16 a) as [b0 b1]. change (zlen (w16_bytes (W16 b0 b1))) with 2. lia. }
  apply andb_true_iff. split; [lia|]. apply forallb_forall. intros c Hc. apply negb_true_iff.
  destruct (N.eqb_spec c 47); [subst; contradiction|]. destruct (N.eqb_spec c 92); [subst; contradiction|].
  destruct (N.eqb_spec c 58); [subst; contradiction|]. destruct (N.eqb_spec c 33); [subst; contradiction|]. reflexivity.
Qed.
Lemma split_on_none c (s : rstring) : ~ In c s -> split_on c s = [s].
Proof.
  induction s as [|x s IH]; intros H; [reflexivity|]. cbn [split_on].
  destruct (N.eqb_spec x c) as [->|Hx]; [exfalso; apply H; left; reflexivity|].
  rewrite IH; [reflexivity|]. intros Hc. apply H. right. exact Hc.
Qed.
Lemma formatted_plain dir s : plain_component s -> formatted_chain dir s = Ok [dir; s].
Proof.
  intros (H1 & H2 & H3 & H4). unfold formatted_chain. rewrite split_on_none by exact H4. cbn [name_chain].
  rewrite rstring_eqb_neq by exact H1. rewrite (rstring_eqb_neq s [dot]) by exact H2. rewrite (rstring_eqb_neq s [dot; dot]) by exact H3.
  reflexivity.
Qed.
Lemma joined_plain dir s : plain_component s -> joined_chain dir s = Ok [dir; s].
Proof.
  intros H. pose proof (formatted_plain dir s H) as E. unfold joined_chain, formatted_chain in *.
  destruct H as (H1 & H2 & H3 & H4). destruct s as [|c s]; [exact E|].
  destruct (N.eq_dec c 47) as [->|Hc]; [exfalso; apply H4; left; reflexivity|].
  destruct c as [|p]; [exact E|]. repeat (destruct p as [p|p|]; try exact E). exfalso. apply Hc. reflexivity.
Qed.

Section Info.
Variable up : N -> N.
Local Notation fold_name := (fold_name up).
Local Notation keys := (keys up).
Local Notation fpath := (fpath up).

Fixpoint store_infos (es : list (rstring * bytes)) (f : cfile) : res cfile :=
  match es with
  | [] => Ok f
  | (n, d) :: es' => f1 <~ cf_store up true [TableInfoStg; n] (Ok d) f ;; store_infos es' f1
  end.
Lemma store_infos_app a b f : store_infos (a ++ b) f = (f1 <~ store_infos a f ;; store_infos b f1).
Proof. revert f. induction a as [|[n d] a IH]; intros f; [reflexivity|]. cbn [store_infos app]. rewrite bind_assoc.
  destruct (cf_store _ _ _ _ _) as [f1|e]; [apply IH|reflexivity]. Qed.
Lemma write_info_store n x f : write_info up n x f = store_infos (field_entry (n, x)) f.
Proof.
  unfold write_info, field_entry. destruct x as [d|]; [|reflexivity]. cbn [snd fst store_infos].
  destruct (cf_store _ _ _ _ _); reflexivity.
Qed.
Lemma write_properties_store ps f : Forall (fun e => stream_name (fst e)) ps ->
  write_properties up ps f = store_infos (map (fun e => (fst e, encode_utf16le (snd e))) ps) f.
Proof.
  intros H. revert f. induction H as [|[k v] ps Hk _ IH]; intros f; [reflexivity|]. cbn [write_properties store_infos map fst snd] in *.
  rewrite joined_plain by apply Hk. cbn [rbind]. destruct (cf_store _ _ _ _ _) as [f1|e]; [apply IH|reflexivity].
Qed.
Lemma write_tableinfo_store t f : Forall (fun e => stream_name (fst e)) (ti_properties t) ->
  write_tableinfo up t f = (f1 <~ cf_create_storage up [TableInfoStg] f ;; store_infos (info_entries t) f1).
Proof.
  intros H. unfold write_tableinfo, write_info_string. destruct (cf_create_storage _ _ _) as [f1|e]; [|reflexivity]. cbn [rbind].
  unfold info_entries, info_fields. cbn [flat_map]. rewrite app_nil_r, <- !app_assoc.
  repeat (rewrite store_infos_app, write_info_store;
          match goal with |- context [store_infos (field_entry ?e) ?f] => destruct (store_infos (field_entry e) f) as [?|?]; [|reflexivity] end;
          cbn [rbind]).
  apply write_properties_store, H.
Qed.

Definition info_file (es : list (rstring * bytes)) : cfile := map (fun e => ([TableInfoStg; fst e], Stream (snd e))) es.
Lemma fpath_info n : fpath [TableInfoStg; n] = [fold_name TableInfoStg; fold_name n].
Proof. reflexivity. Qed.
Lemma keys_info es : keys (info_file es) = map (fun e => [fold_name TableInfoStg; fold_name (fst e)]) es.
Proof. unfold CfbFacts.keys, info_file. rewrite map_map. reflexivity. Qed.
Lemma store_infos_ok es : forall f, Forall (fun e => valid_stream_name (fst e) = true) es ->
  NoDup (keys (f ++ info_file es)) -> cf_node up [TableInfoStg] f = Some Storage ->
  store_infos es f = Ok (f ++ info_file es).
Proof.
  induction es as [|[n d] es IH]; intros f HV HN HS; [cbn; rewrite app_nil_r; reflexivity|].
  inversion HV as [|e l H1 H2]; subst. cbn [store_infos].
  change (info_file ((n, d) :: es)) with ([([TableInfoStg; n], Stream d)] ++ info_file es) in HN |- *. rewrite app_assoc in HN |- *.
  rewrite (cf_store_new up true [TableInfoStg; n] d f); [|discriminate| |exact HS|exact H1].
  - cbn [rbind]. apply IH; [exact H2|exact HN|]. apply cf_node_app_old; [discriminate|exact HS].
  - rewrite !keys_app, <- app_assoc in HN. apply NoDup_remove_2 in HN. intros Hin. apply HN. apply in_or_app. left. exact Hin.
Qed.

(** *** Names are different *)
Lemma fold_reserved_nodup : NoDup (map (fun n => fold_name (lit n)) reserved_names).
Proof.
  vm_compute.
  repeat (constructor; [cbn [In]; intros H; repeat (destruct H as [H|H]; [discriminate H|]); exact H|]). constructor.
Qed.
Lemma field_names l : forall n, In n (map fst (flat_map field_entry l)) -> exists e, In e l /\ n = lit (fst e).
Proof.
  intros n H. apply in_map_iff in H. destruct H as ([m d] & <- & H). apply in_flat_map in H. destruct H as (e & He & H).
  exists e. split; [exact He|]. unfold field_entry in H. destruct (snd e); [|destruct H]. destruct H as [H|[]]. injection H as <- _. reflexivity.
Qed.
Lemma field_nodup l : NoDup (map (fun e : string * option bytes => fold_name (lit (fst e))) l) ->
  NoDup (map (fun e => fold_name (fst e)) (flat_map field_entry l)).
Proof.
  induction l as [|[n x] l IH]; intros H; [constructor|]. cbn [map flat_map fst] in *. inversion H as [|k ks H1 H2]; subst.
  unfold field_entry at 1. cbn [snd fst]. destruct x as [d|]; [|apply IH, H2]. cbn [app map fst]. constructor; [|apply IH, H2].
  intros Hin. apply H1. apply in_map_iff in Hin. destruct Hin as ([m d'] & E & Hin). cbn [fst] in E.
  destruct (field_names l m) as (e & He & Em). { apply (in_map fst _ _ Hin). }
  subst m. apply in_map_iff. exists e. auto.
Qed.
Lemma info_names t : map fst (info_fields t) = reserved_names.
Proof. reflexivity. Qed.
Lemma entries_nodup t : info_fits up t -> NoDup (map (fun e => fold_name (fst e)) (info_entries t)).
Proof.
  intros H. assert (HF : Forall (fun e : rstring * rstring => forall n, In n reserved_names -> ~ same_name up (fst e) (lit n)) (ti_properties t)).
  { eapply Forall_impl; [|apply H]. cbn. intros e He. apply He. }
  assert (HD : NoDup (map (fun e : rstring * rstring => map (fold_char up) (fst e)) (ti_properties t))) by apply H. clear H.
  unfold info_entries. rewrite map_app. rewrite map_map. cbn [fst].
  assert (HR : NoDup (map (fun e => fold_name (fst e)) (flat_map field_entry (info_fields t)))).
  { apply field_nodup. rewrite <- (map_map fst (fun n => fold_name (lit n))), info_names. apply fold_reserved_nodup. }
  induction (flat_map field_entry (info_fields t)) as [|[n d] l IH] eqn:El in HR |- *; [exact HD|clear IH].
  assert (G : forall l : list (rstring * bytes), (forall n, In n (map fst l) -> In n (map lit reserved_names)) ->
    NoDup (map (fun e => fold_name (fst e)) l) ->
    NoDup (map (fun e => fold_name (fst e)) l ++ map (fun x : rstring * rstring => fold_name (fst x)) (ti_properties t))).
  { clear - HF HD. induction l as [|[n d] l IH]; intros HI HN; [exact HD|]. cbn [map fst app] in *. inversion HN as [|k ks H1 H2]; subst.
    constructor; [|apply IH; [intros m Hm; apply HI; right; exact Hm|exact H2]].
    intros Hin. apply in_app_or in Hin. destruct Hin as [Hin|Hin]; [contradiction|].
    apply in_map_iff in Hin. destruct Hin as (e & E & Hin). rewrite Forall_forall in HF.
    destruct (proj1 (in_map_iff _ _ _) (HI n (or_introl eq_refl))) as (r & <- & Hr). apply (HF e Hin r Hr). exact E. }
  apply G; [|exact HR]. intros m Hm. rewrite <- El in Hm. apply field_names in Hm. destruct Hm as (e & He & ->).
  apply in_map. rewrite <- (info_names t). apply in_map, He.
Qed.
Lemma entries_valid t : info_fits up t -> Forall (fun e => valid_stream_name (fst e) = true) (info_entries t).
Proof.
  intros H. unfold info_entries. apply Forall_app. split.
  - apply Forall_forall. intros [m d] Hm. apply (in_map fst) in Hm. apply field_names in Hm. destruct Hm as (e & He & E). cbn [fst] in *. rewrite E.
    apply (in_map fst) in He. rewrite info_names in He. revert He. generalize (fst e). clear.
    assert (G : forallb (fun n => valid_stream_name (lit n)) reserved_names = true) by reflexivity.
    rewrite forallb_forall in G. exact G.
  - apply Forall_map. cbn [fst]. eapply Forall_impl; [|apply H]. cbn. intros e He. apply stream_name_valid, He.
Qed.
Definition info_part (t : TableInfo) : cfile := ([TableInfoStg], Storage) :: info_file (info_entries t).
Lemma info_part_nodup t : info_fits up t -> NoDup (keys (info_part t)).
Proof.
  intros H. unfold info_part. change (keys ((?a) :: ?b)) with (fpath (fst a) :: keys b). rewrite keys_info. constructor.
  - intros Hin. apply in_map_iff in Hin. destruct Hin as (e & E & _). discriminate E.
  - pose proof (entries_nodup t H) as HN. induction (info_entries t) as [|e l IH]; [constructor|]. cbn [map] in *.
    inversion HN as [|k ks H1 H2]; subst. constructor; [|apply IH, H2]. intros Hin. apply H1.
    apply in_map_iff in Hin. destruct Hin as (e' & E & Hin). injection E as E. apply in_map_iff. exists e'. auto.
Qed.
Lemma write_tableinfo_ok t f : info_fits up t -> NoDup (keys (f ++ info_part t)) ->
  write_tableinfo up t f = Ok (f ++ info_part t).
Proof.
  intros H HN. rewrite write_tableinfo_store.
  2:{ eapply Forall_impl; [|apply H]. cbn. intros e He. apply He. }
  change (info_part t) with ([([TableInfoStg], Storage)] ++ info_file (info_entries t)) in *. rewrite app_assoc in *.
  rewrite cf_create_storage_new; [|discriminate| |reflexivity|reflexivity].
  - cbn [rbind]. apply store_infos_ok; [apply entries_valid, H|exact HN|].
    apply cf_node_in; [discriminate| |apply in_or_app; right; left; reflexivity].
    rewrite keys_app in HN. apply NoDup_app_l in HN. exact HN.
  - rewrite !keys_app, <- app_assoc in HN. apply NoDup_remove_2 in HN. intros Hin. apply HN. apply in_or_app. left. exact Hin.
Qed.

(** *** Reading *)
Definition dec_str (d : bytes) : rstring := match decode_utf16le d with Ok s => s | Fail _ => [] end.
Definition readable (e : rstring * bytes) : Prop := fst e <> lit "Screenshot" -> exists s, decode_utf16le (snd e) = Ok s.
Definition as_stream (e : rstring * bytes) : rstring * node := (fst e, Stream (snd e)).
(** The effect of one readable stream. *)
Definition put_info (e : rstring * bytes) (t : TableInfo) : TableInfo :=
  let name := fst e in let s := dec_str (snd e) in
  if rstring_eqb name (lit "TableName") then set_ti_table_name (Some s) t else
  if rstring_eqb name (lit "AuthorName") then set_ti_author_name (Some s) t else
  if rstring_eqb name (lit "Screenshot") then set_ti_screenshot (Some (snd e)) t else
  if rstring_eqb name (lit "TableBlurb") then set_ti_table_blurb (Some s) t else
  if rstring_eqb name (lit "TableRules") then set_ti_table_rules (Some s) t else
  if rstring_eqb name (lit "AuthorEmail") then set_ti_author_email (Some s) t else
  if rstring_eqb name (lit "ReleaseDate") then set_ti_release_date (Some s) t else
  if rstring_eqb name (lit "TableSaveRev") then set_ti_table_save_rev (Some s) t else
  if rstring_eqb name (lit "TableVersion") then set_ti_table_version (Some s) t else
  if rstring_eqb name (lit "AuthorWebSite") then set_ti_author_website (Some s) t else
  if rstring_eqb name (lit "TableSaveDate") then set_ti_table_save_date (Some s) t else
  if rstring_eqb name (lit "TableDescription") then set_ti_table_description (Some s) t else
  set_ti_properties (map_insert name s (ti_properties t)) t.
Lemma read_info_put e t : readable e -> read_info (fst e) (snd e) t = Ok (put_info e t).
Proof.
  intros H. unfold read_info, put_info, dec_str. unfold readable in H.
  destruct (rstring_eqb (fst e) (lit "Screenshot")) eqn:E.
  - apply rstring_eqb_eq in E. rewrite E. reflexivity.
  - destruct H as [s Hs]. { intros E2. rewrite E2, rstring_eqb_refl in E. discriminate. }
    rewrite Hs. cbn [rbind]. repeat match goal with |- context [if ?c then _ else _] => destruct c; [reflexivity|] end. reflexivity.
Qed.
Lemma read_infos_put es : forall t, Forall readable es ->
  read_infos (map as_stream es) t = Ok (fold_left (fun t e => put_info e t) es t).
Proof.
  induction es as [|e es IH]; intros t H; [reflexivity|]. inversion H as [|x l H1 H2]; subst. destruct e as [n d].
  cbn [map as_stream fst snd read_infos fold_left]. pose proof (read_info_put (n, d) t H1) as E. cbn [fst snd] in E. rewrite E. cbn [rbind].
  apply IH, H2.
Qed.
Lemma value_at_in {A} k (m : list (rstring * A)) v : value_at k m = Some v -> In (k, v) m.
Proof.
  induction m as [|[k' v'] m IH]; [discriminate|]. cbn. destruct (list_eq_dec N.eq_dec k k') as [->|H].
  - intros [= ->]. left. reflexivity.
  - intros E. right. apply IH, E.
Qed.
Lemma value_at_none {A} k (m : list (rstring * A)) : ~ In k (map fst m) -> value_at k m = None.
Proof.
  intros H. destruct (value_at k m) as [v|] eqn:E; [|reflexivity]. exfalso. apply H. apply value_at_in in E. apply (in_map fst _ _ E).
Qed.
Lemma in_value_at {A} k (m : list (rstring * A)) v : NoDup (map fst m) -> In (k, v) m -> value_at k m = Some v.
Proof.
  induction m as [|[k' v'] m IH]; intros HN HI; [destruct HI|]. cbn [map fst value_at] in *. inversion HN as [|x l H1 H2]; subst.
  destruct (list_eq_dec N.eq_dec k k') as [->|H].
  - destruct HI as [HI|HI]; [congruence|]. exfalso. apply H1. apply (in_map fst _ _ HI).
  - destruct HI as [HI|HI]; [congruence|]. apply IH; assumption.
Qed.
Lemma value_at_perm {A} (m m' : list (rstring * A)) k : NoDup (map fst m) -> Permutation m m' -> value_at k m = value_at k m'.
Proof.
  intros HN HP. assert (HN' : NoDup (map fst m')) by (eapply Permutation_NoDup; [|exact HN]; apply Permutation_map, HP).
  destruct (value_at k m) as [v|] eqn:E.
  - symmetry. apply in_value_at; [exact HN'|]. eapply Permutation_in; [exact HP|]. apply value_at_in, E.
  - destruct (value_at k m') as [v|] eqn:E'; [|reflexivity]. apply value_at_in in E'. apply Permutation_sym in HP.
    apply (Permutation_in _ HP) in E'. apply (in_value_at _ _ _ HN) in E'. congruence.
Qed.
Lemma value_at_insert {A} k v (m : list (rstring * A)) x :
  value_at x (map_insert k v m) = if list_eq_dec N.eq_dec x k then Some v else value_at x m.
Proof.
  induction m as [|[k' v'] m IH]; [reflexivity|]. cbn [map_insert]. destruct (rstring_eqb k k') eqn:E.
  - apply rstring_eqb_eq in E. subst k'. cbn. destruct (list_eq_dec N.eq_dec x k); reflexivity.
  - cbn [value_at]. rewrite IH. destruct (list_eq_dec N.eq_dec x k') as [->|H]; [|reflexivity].
    destruct (list_eq_dec N.eq_dec k' k) as [->|H']; [rewrite rstring_eqb_refl in E; discriminate|reflexivity].
Qed.
(** One field after all streams. *)
Lemma field_after {A} (get : TableInfo -> A) (name : rstring) (val : bytes -> A) :
  (forall e t, fst e = name -> get (put_info e t) = val (snd e)) -> (forall e t, fst e <> name -> get (put_info e t) = get t) ->
  forall es t, NoDup (map fst es) ->
  get (fold_left (fun t e => put_info e t) es t) = match value_at name es with Some d => val d | None => get t end.
Proof.
  intros H1 H2. induction es as [|[n d] es IH]; intros t HN; [reflexivity|]. cbn [fold_left map fst value_at] in *.
  inversion HN as [|x l H3 H4]; subst. rewrite IH by exact H4. destruct (list_eq_dec N.eq_dec name n) as [<-|H].
  - rewrite value_at_none by exact H3. apply (H1 (name, d)). reflexivity.
  - destruct (value_at name es); [reflexivity|]. apply (H2 (n, d)). cbn. congruence.
Qed.
Definition is_reserved (k : rstring) : bool := existsb (fun n => rstring_eqb k (lit n)) reserved_names.
Lemma properties_after es : forall t k, NoDup (map fst es) ->
  value_at k (ti_properties (fold_left (fun t e => put_info e t) es t)) =
  if is_reserved k then value_at k (ti_properties t)
  else match value_at k es with Some d => Some (dec_str d) | None => value_at k (ti_properties t) end.
Proof.
  assert (P : forall e t k, value_at k (ti_properties (put_info e t)) =
    if is_reserved k then value_at k (ti_properties t) else if list_eq_dec N.eq_dec k (fst e) then Some (dec_str (snd e)) else value_at k (ti_properties t)).
  { intros e t k. destruct (is_reserved (fst e)) eqn:R.
    - assert (E : ti_properties (put_info e t) = ti_properties t).
      { unfold is_reserved, reserved_names in R. cbn [existsb] in R. unfold put_info.
        repeat match goal with |- context [if ?c then _ else _] => destruct c; [reflexivity|] end. discriminate R. }
      rewrite E. destruct (is_reserved k) eqn:Rk; [reflexivity|]. destruct (list_eq_dec N.eq_dec k (fst e)) as [->|H]; [congruence|reflexivity].
    - assert (E : ti_properties (put_info e t) = map_insert (fst e) (dec_str (snd e)) (ti_properties t)).
      { unfold is_reserved, reserved_names in R. cbn [existsb] in R. unfold put_info.
        repeat match goal with |- context [if ?c then _ else _] => destruct c; [discriminate R|] end. reflexivity. }
      rewrite E, value_at_insert. destruct (list_eq_dec N.eq_dec k (fst e)) as [->|H]; [rewrite R; reflexivity|]. destruct (is_reserved k); reflexivity. }
  induction es as [|[n d] es IH]; intros t k HN. { cbn [fold_left value_at]. destruct (is_reserved k); reflexivity. }
  cbn [fold_left map fst value_at] in *. inversion HN as [|x l H3 H4]; subst. rewrite IH, P by exact H4. cbn [fst snd].
  destruct (is_reserved k); [reflexivity|]. destruct (list_eq_dec N.eq_dec k n) as [->|H].
  - rewrite value_at_none by exact H3. reflexivity.
  - reflexivity.
Qed.

Lemma value_at_app {A} k (a b : list (rstring * A)) : value_at k (a ++ b) = match value_at k a with Some v => Some v | None => value_at k b end.
Proof. induction a as [|[k' v] a IH]; [reflexivity|]. cbn. destruct (list_eq_dec N.eq_dec k k'); [reflexivity|exact IH]. Qed.
Lemma value_at_fields l : forall n x, NoDup (map (fun e : string * option bytes => lit (fst e)) l) -> In (n, x) l ->
  value_at (lit n) (flat_map field_entry l) = x.
Proof.
  induction l as [|[m y] l IH]; intros n x HN HI; [destruct HI|]. cbn [map fst flat_map] in *. inversion HN as [|k ks H1 H2]; subst.
  rewrite value_at_app. destruct HI as [HI|HI].
  - injection HI as -> ->. unfold field_entry at 1. cbn [fst snd]. destruct x as [d|]; cbn [value_at].
    + destruct (list_eq_dec N.eq_dec (lit n) (lit n)); [reflexivity|congruence].
    + apply value_at_none. intros Hin. apply field_names in Hin. destruct Hin as (e & He & E). apply H1. rewrite E. apply (in_map (fun e => lit (fst e)) _ _ He).
  - assert (Hd : lit n <> lit m). { intros E. apply H1. rewrite <- E. apply (in_map (fun e : string * option bytes => lit (fst e)) _ _ HI). }
    unfold field_entry at 1. cbn [fst snd]. destruct y as [d|]; cbn [value_at].
    + destruct (list_eq_dec N.eq_dec (lit n) (lit m)); [congruence|]. apply IH; assumption.
    + apply IH; assumption.
Qed.
Lemma fold_nodup_names (es : list (rstring * bytes)) : NoDup (map (fun e => fold_name (fst e)) es) -> NoDup (map fst es).
Proof. intros H. rewrite <- (map_map fst fold_name) in H. eapply NoDup_map_inv, H. Qed.
Lemma is_reserved_iff k : is_reserved k = true <-> exists n, In n reserved_names /\ k = lit n.
Proof.
  unfold is_reserved. rewrite existsb_exists. split; intros (n & H1 & H2); exists n; (split; [exact H1|]).
  - apply rstring_eqb_eq, H2.
  - subst. apply rstring_eqb_refl.
Qed.
Lemma value_at_map {A B} (g : A -> B) k (m : list (rstring * A)) : value_at k (map (fun e => (fst e, g (snd e))) m) = option_map g (value_at k m).
Proof. induction m as [|[k' v] m IH]; [reflexivity|]. cbn. destruct (list_eq_dec N.eq_dec k k'); [reflexivity|exact IH]. Qed.
Lemma entries_field t n x : info_fits up t -> In (n, x) (info_fields t) -> value_at (lit n) (info_entries t) = x.
Proof.
  intros H HI. unfold info_entries. rewrite value_at_app, (value_at_fields (info_fields t) n x); [|vm_compute; clear|exact HI].
  2:{ repeat (constructor; [cbn [In]; intros H; repeat (destruct H as [H|H]; [discriminate H|]); exact H|]). constructor. }
  destruct x as [d|]; [reflexivity|]. apply value_at_none. rewrite map_map. cbn [fst]. intros Hin. apply in_map_iff in Hin.
  destruct Hin as (e & E & Hin). destruct H as (_ & _ & _ & _ & _ & _ & _ & _ & _ & _ & _ & HF & _). rewrite Forall_forall in HF.
  apply (proj2 (proj2 (HF e Hin)) n); [rewrite <- (info_names t); apply (in_map fst _ _ HI)|]. unfold same_name. f_equal. exact E.
Qed.
Lemma dec_str_encode s : Forall scalar_value s -> dec_str (encode_utf16le s) = s.
Proof. intros H. unfold dec_str. rewrite utf16_roundtrip; [reflexivity|]. apply is_rstring_scalars, H. Qed.
Lemma entries_readable t : info_fits up t -> Forall readable (info_entries t).
Proof.
  intros (H1 & H2 & H3 & H4 & H5 & H6 & H7 & H8 & H9 & H10 & H11 & HF & _). unfold info_entries. apply Forall_app. split.
  - assert (G : forall s : rstring, Forall scalar_value s -> exists s', decode_utf16le (encode_utf16le s) = Ok s').
    { intros s Hs. exists s. apply utf16_roundtrip, is_rstring_scalars, Hs. }
    unfold info_fields. cbn [flat_map]. rewrite app_nil_r.
    repeat (apply Forall_app; split); unfold field_entry; cbn [fst snd];
      match goal with |- Forall _ (match ?x with _ => _ end) => destruct x eqn:?E end;
      try (apply Forall_nil); (apply Forall_cons; [|apply Forall_nil]); intros HS; cbn [fst snd] in *; try (exfalso; apply HS; reflexivity).
    all: match goal with E : option_map _ ?x = Some _ |- _ => destruct x eqn:?E; [|discriminate E]; injection E as <- end; apply G; assumption.
  - apply Forall_map. eapply Forall_impl; [|exact HF]. cbn [fst snd]. intros e (_ & He & _) _. exists (snd e). apply utf16_roundtrip, is_rstring_scalars, He.
Qed.
Lemma read_entries t es : info_fits up t -> Permutation (map as_stream (info_entries t)) es ->
  exists t', read_infos es TableInfo_new = Ok t' /\ same_info t' t.
Proof.
  intros H HP. apply Permutation_sym, Permutation_map_inv in HP. destruct HP as (es' & -> & HP).
  assert (HR : Forall readable es').
  { apply Forall_forall. intros e He. pose proof (entries_readable t H) as HA. rewrite Forall_forall in HA. apply HA.
    eapply Permutation_in; [apply Permutation_sym, HP|exact He]. }
  rewrite read_infos_put by exact HR. eexists. split; [reflexivity|].
  pose proof (fold_nodup_names _ (entries_nodup t H)) as HN.
  assert (HN' : NoDup (map fst es')). { eapply Permutation_NoDup; [|exact HN]. apply Permutation_map, HP. }
  assert (V : forall n x, In (n, x) (info_fields t) -> value_at (lit n) es' = x).
  { intros n x Hin. rewrite <- (value_at_perm _ _ (lit n) HN HP). apply entries_field; assumption. }
  destruct H as (T1 & T2 & T3 & T4 & T5 & T6 & T7 & T8 & T9 & T10 & T11 & HF & _).
  unfold same_info.
  repeat match goal with |- _ /\ _ => split end.
  Local Ltac field_tac V name T v :=
    match goal with |- ?get (fold_left _ _ _) = _ => rewrite (field_after get (lit name) v); [| | |assumption] end;
    [ erewrite (V name); [|cbn; tauto];
      match goal with
      | |- match option_map _ ?x with _ => _ end = _ => destruct x eqn:?E; [|reflexivity]; cbn [option_map]; f_equal; apply dec_str_encode; exact T
      | |- match ?x with _ => _ end = _ => destruct x; reflexivity
      end
    | intros e t0 E; unfold put_info; rewrite E; reflexivity
    | intros e t0 E; unfold put_info; cbv zeta; rewrite (rstring_eqb_neq (fst e) (lit name) E);
      repeat match goal with |- context [if ?c then _ else _] => destruct c; [reflexivity|] end; reflexivity ].
  - field_tac V "TableName"%string T1 (fun d => Some (dec_str d)).
  - field_tac V "AuthorName"%string T2 (fun d => Some (dec_str d)).
  - field_tac V "Screenshot"%string T1 (fun d : bytes => Some d).
  - field_tac V "TableBlurb"%string T3 (fun d => Some (dec_str d)).
  - field_tac V "TableRules"%string T4 (fun d => Some (dec_str d)).
  - field_tac V "AuthorEmail"%string T5 (fun d => Some (dec_str d)).
  - field_tac V "ReleaseDate"%string T6 (fun d => Some (dec_str d)).
  - field_tac V "TableSaveRev"%string T7 (fun d => Some (dec_str d)).
  - field_tac V "TableVersion"%string T8 (fun d => Some (dec_str d)).
  - field_tac V "AuthorWebSite"%string T9 (fun d => Some (dec_str d)).
  - field_tac V "TableSaveDate"%string T10 (fun d => Some (dec_str d)).
  - field_tac V "TableDescription"%string T11 (fun d => Some (dec_str d)).
  - intros k. rewrite properties_after by exact HN'. change (ti_properties TableInfo_new) with (@nil (rstring * rstring)). cbn [value_at].
    rewrite Forall_forall in HF. destruct (is_reserved k) eqn:R.
    + symmetry. apply value_at_none. intros Hin. apply in_map_iff in Hin. destruct Hin as (e & E & Hin).
      apply is_reserved_iff in R. destruct R as (n & Hn & Ek). apply (proj2 (proj2 (HF e Hin)) n Hn). unfold same_name. f_equal. rewrite <- Ek. exact E.
    + rewrite <- (value_at_perm _ _ k HN HP). unfold info_entries. rewrite value_at_app.
      rewrite (value_at_none k (flat_map field_entry (info_fields t))).
      * rewrite value_at_map. destruct (value_at k (ti_properties t)) as [v|] eqn:E; [|reflexivity]. cbn [option_map]. f_equal.
        apply dec_str_encode. apply value_at_in in E. apply (HF _ E).
      * intros Hin. apply field_names in Hin. destruct Hin as (e & He & E).
        assert (is_reserved k = true); [|congruence]. apply is_reserved_iff. exists (fst e). split; [|exact E].
        rewrite <- (info_names t). apply in_map, He.
Qed.
Lemma children_info es : cf_children up [TableInfoStg] (info_file es) = map as_stream es.
Proof.
  induction es as [|e es IH]; [reflexivity|]. unfold cf_children, info_file in *. cbn [map flat_map fst removelast]. rewrite path_eqb_refl.
  cbn [app last snd fst]. rewrite IH. reflexivity.
Qed.
Lemma children_none p f : (forall e, In e f -> fpath (removelast (fst e)) <> fpath p \/ fst e = []) -> cf_children up p f = [].
Proof.
  induction f as [|e f IH]; intros H; [reflexivity|]. unfold cf_children in *. cbn [flat_map]. rewrite IH by (intros e' He'; apply H; right; exact He').
  rewrite app_nil_r. destruct (fst e) eqn:E; [reflexivity|]. rewrite path_eqb_false; [reflexivity|].
  destruct (H e (or_introl eq_refl)) as [H1|H1]; [|congruence]. rewrite E in H1. congruence.
Qed.
Lemma read_tableinfo_ok order t f g : (forall l, Permutation l (order l)) -> info_fits up t ->
  cf_node up [TableInfoStg] (f ++ info_part t ++ g) = Some Storage ->
  (forall e, In e (f ++ g) -> fpath (removelast (fst e)) <> fpath [TableInfoStg] \/ fst e = []) ->
  exists t', read_tableinfo up order (f ++ info_part t ++ g) = Ok t' /\ same_info t' t.
Proof.
  intros HO H HS HC. unfold read_tableinfo, cf_read_storage. rewrite HS. cbn [unwrap rbind].
  assert (E : cf_children up [TableInfoStg] (f ++ info_part t ++ g) = map as_stream (info_entries t)).
  { rewrite !cf_children_app. rewrite (children_none _ f), (children_none _ g).
    - rewrite app_nil_r. cbn [app]. unfold info_part. unfold cf_children at 1. cbn [flat_map fst removelast].
      change (path_eqb up [TableInfoStg] []) with false. cbn [app]. apply children_info.
    - intros e He. apply HC, in_or_app. right. exact He.
    - intros e He. apply HC, in_or_app. left. exact He. }
  rewrite E. apply read_entries; [exact H|apply HO].
Qed.
End Info.

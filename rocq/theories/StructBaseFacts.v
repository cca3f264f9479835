(** Lemmas about record readers and writers that are put together from several groups of fields. *)
From Verif Require Import Base Text Biff Quantize Common.
From Verif Require Import BaseFacts TextFacts BiffFacts CommonFacts TermFacts.

Lemma wapp_wskip : wapp wskip (enc []).
Proof. intros w d H. exists w. split; [reflexivity|]. cbn. rewrite app_nil_r. exact H. Qed.

(** ** The tags of a list of records *)
Definition tag_known {S} (arms : list (arm S)) (t : string) : bool := existsb (String.eqb t) (map fst arms).
Lemma tags_cons (f : rec -> bool) r rs : f r = true -> forallb f rs = true -> forallb f (r :: rs) = true.
Proof. intros H1 H2. cbn [forallb]. rewrite H1, H2. reflexivity. Qed.
Lemma tags_orec {A} (f : rec -> bool) (o : option A) g rs :
  (forall x, f (g x) = true) -> forallb f rs = true -> forallb f (orec o g ++ rs) = true.
Proof. intros H1 H2. destruct o; cbn [orec app forallb]; rewrite ?H1; exact H2. Qed.
Ltac tags_in :=
  repeat first [ apply tags_cons; [reflexivity|] | apply tags_orec; [intros; reflexivity|] ]; reflexivity.

(** ** Groups *)
Lemma tag_known_lookup {S} (arms : list (arm S)) t : tag_known arms t = true -> exists a, lookup t arms = Some a.
Proof.
  unfold tag_known. induction arms as [|[k a] arms IH]; cbn [map existsb lookup fst]; [discriminate|].
  destruct (t =? k)%string; [eauto|]. exact IH.
Qed.
Lemma lookup_unknown {S} (arms : list (arm S)) t : tag_known arms t = false -> lookup t arms = None.
Proof.
  unfold tag_known. induction arms as [|[k a] arms IH]; cbn [map existsb lookup fst]; [reflexivity|].
  destruct (t =? k)%string; [discriminate|]. exact IH.
Qed.
Lemma lookup_lift {S T} (get : S -> T) set (arms : list (arm T)) t :
  lookup t (lift_arms get set arms) =
  match lookup t arms with Some a => Some (fun s => x <- a (get s) ;; rret (set x s)) | None => None end.
Proof.
  unfold lift_arms. induction arms as [|[k a] arms IH]; cbn [map lookup]; [reflexivity|].
  destruct (t =? k)%string; auto.
Qed.
Lemma lift_tags {S T} (get : S -> T) set (arms : list (arm T)) : map fst (lift_arms get set arms) = map fst arms.
Proof. unfold lift_arms. rewrite map_map. apply map_ext. intros [k a]. reflexivity. Qed.

(** A handler that treats the tags of a group like the group's arms do, on a component of its state. *)
Lemma Steps_group {S T} (H : string -> S -> rd_M S) (arms : list (arm T)) (get : S -> T) (set : T -> S -> S) :
  (forall x s, get (set x s) = x) -> (forall x y s, set x (set y s) = set x s) ->
  (forall t a, lookup t arms = Some a -> forall s, H t s = (x <- a (get s) ;; rret (set x s))) ->
  forall s rs s', Steps (dispatch arms) s rs s' -> forallb (fun r => tag_known arms (rec_tag r)) rs = true ->
  forall G, set s G = G -> get G = s -> Steps H G rs (set s' G).
Proof.
  intros Hgs Hss HH s rs s' HS. induction HS as [s|t n p s s1 rs s2 Hr Hh HS IH]; intros Ht G HsG HgG.
  - rewrite HsG. constructor.
  - cbn [forallb rec_tag] in Ht. apply andb_true_iff in Ht. destruct Ht as [Ht Hts].
    destruct (tag_known_lookup _ _ Ht) as [a L].
    assert (E : set s2 G = set s2 (set s1 G)) by (rewrite Hss; reflexivity). rewrite E.
    econstructor; [exact Hr| |apply IH; [exact Hts|apply Hss|apply Hgs]].
    intros pre rest w c Hrest. rewrite (HH t a L). specialize (Hh pre rest w c Hrest).
    unfold dispatch in Hh. rewrite L in Hh. unfold rbindM. rewrite HgG, Hh. reflexivity.
Qed.

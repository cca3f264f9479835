(** Lemmas about items with a type number in front, and about records of unknown tags. *)
From Verif Require Import Base Text Biff Quantize Common Enums ItemBase GameItem.
From Verif Require Import BaseFacts TextFacts BiffFacts CommonFacts TermFacts QuantizeFacts EnumsFacts ItemBaseFacts.

(** ** Records with tags that nobody looks at *)
(** [Padded known rs rs']: [rs'] is [rs] with extra records put anywhere between, before and after its records, and
    likewise inside the drag points of [rs].  An extra record has a tag of one to four non-NUL bytes that is neither in
    [known] nor the end marker, and any payload whose size fits the record header. *)
Inductive Padded (known : list string) : list rec -> list rec -> Prop :=
| Padded_nil : Padded known [] []
| Padded_same r rs rs' : Padded known rs rs' -> Padded known (r :: rs) (r :: rs')
| Padded_extra t p rs rs' :
    tag_ok t = true -> t <> "ENDB"%string -> ~ In t known -> size_ok (zlen p) = true ->
    Padded known rs rs' -> Padded known rs (R t p :: rs')
| Padded_point v sub rs rs' :
    DragPoint_ok v = true -> Padded (map fst DragPoint_arms) (DragPoint_recs v) sub ->
    Padded known rs rs' ->
    Padded known (R0 "DPNT" (DragPoint_bytes v) :: rs) (R0 "DPNT" (enc (sub ++ [endb])) :: rs').

Lemma Padded_refl known rs : Padded known rs rs.
Proof. induction rs; constructor; assumption. Qed.

Lemma lookup_none {A} t (arms : list (string * A)) : ~ In t (map fst arms) -> lookup t arms = None.
Proof.
  induction arms as [|[k a] arms IH]; intros H; [reflexivity|]. cbn [map fst In lookup] in *.
  destruct (t =? k)%string eqn:E; [apply String.eqb_eq in E; subst; intuition|]. apply IH. intuition.
Qed.

(** A record that no arm handles is skipped. *)
Lemma Handles_unknown {S} (arms : list (arm S)) t p s :
  ~ In t (map fst arms) -> Handles (dispatch arms) t (zlen p) p s s.
Proof.
  intros H pre rest w c _. unfold dispatch. rewrite lookup_none by exact H.
  unfold rbindM, skip_tag, rret, set_rem, set_pos, at_. cbn [r_data r_pos r_rem r_tag r_warn r_checked].
  rewrite zlen_app, <- app_assoc. reflexivity.
Qed.

(** The arm for drag points, if any, reads a point and stores it. *)
Definition PointArms {S} (arms : list (arm S)) : Prop :=
  forall a, lookup "DPNT" arms = Some a -> exists k, forall s r, a s r = (y <- DragPoint_read ;; rret (k s y)) r.
Ltac point_arms :=
  lazymatch goal with
  | |- PointArms ?arms =>
      let a := fresh "a" in let H := fresh "H" in let E := fresh "E" in
      intros a H;
      first
        [ (assert (E : lookup "DPNT" arms = None) by reflexivity); rewrite E in H; discriminate H
        | (eassert (E : lookup "DPNT" arms = Some _) by reflexivity); rewrite E in H; injection H as <-;
          eexists; intros; reflexivity ]
  end.
Lemma PointArms_none {S} (arms : list (arm S)) : ~ In "DPNT"%string (map fst arms) -> PointArms arms.
Proof. intros H a E. rewrite lookup_none in E by exact H. discriminate. Qed.
Lemma DragPoint_read_at sub v pre rest t w c : Steps (dispatch DragPoint_arms) DragPoint_default sub v ->
  DragPoint_read (at_ pre (enc (sub ++ [endb]) ++ rest) 0 t w c) = Ok (v, at_ (pre ++ enc (sub ++ [endb])) rest 0 t w c).
Proof.
  intros H. unfold DragPoint_read. apply with_child_at. intros tail.
  rewrite (read_arms_steps DragPoint_arms DragPoint_default sub v [] tail "" false c); [reflexivity|exact H|discriminate].
Qed.
Lemma DragPoint_bytes_nonempty v : 0 < zlen (DragPoint_bytes v).
Proof.
  unfold DragPoint_bytes. rewrite enc_app, zlen_app. pose proof (zlen_nonneg (enc (DragPoint_recs v))).
  change (zlen (enc [endb])) with 8. lia.
Qed.

Lemma Steps_padded_gen known rs rs' : Padded known rs rs' ->
  forall S (arms : list (arm S)) s s', known = map fst arms -> PointArms arms ->
  Steps (dispatch arms) s rs s' -> Steps (dispatch arms) s rs' s'.
Proof.
  induction 1 as [known|known r rs rs' HP IH|known t p rs rs' Ht He Hk Hp HP IH|known v sub rs rs' Hv HP1 IH1 HP2 IH2];
    intros S arms s s' EK HA HS.
  - exact HS.
  - inversion HS; subst. econstructor; eauto.
  - subst known. eapply Steps_one_cons.
    + apply rec_ok_of; [|exact Hp]. rewrite Ht. destruct (t =? "ENDB")%string eqn:E; [|reflexivity].
      apply String.eqb_eq in E. contradiction.
    + apply Handles_unknown, Hk.
    + apply (IH S arms s s' eq_refl HA HS).
  - inversion HS as [|t0 n0 p0 s0 s1 rs0 s2 Hr Hh HS' E1 E2 E3]; subst.
    assert (Hsub : Steps (dispatch DragPoint_arms) DragPoint_default sub v).
    { apply (IH1 DragPoint DragPoint_arms DragPoint_default v eq_refl).
      - apply PointArms_none. vm_compute. intros H; repeat destruct H as [H|H]; try discriminate; exact H.
      - rewrite <- (app_nil_r (DragPoint_recs v)). apply DragPoint_steps, Hv. }
    destruct (lookup "DPNT" arms) as [a|] eqn:EL.
    + destruct (HA a EL) as (k & Hk).
      assert (E1 : s1 = k s v).
      { pose proof (Hh [] [x00] true true ltac:(discriminate)) as E1. unfold dispatch in E1. rewrite EL, Hk in E1.
        pose proof (ArmH_point k v s Hv [] [x00] "DPNT"%string true true ltac:(discriminate)) as E2.
        rewrite E2 in E1. injection E1 as <-. reflexivity. }
      subst s1. apply Steps_one0_cons with (s' := k s v).
      * exact Hr.
      * intros pre rest w c _. unfold dispatch. rewrite EL, Hk. unfold rbindM. rewrite DragPoint_read_at with (v := v) by exact Hsub. reflexivity.
      * apply (IH2 S arms _ s' eq_refl HA HS').
    + exfalso. pose proof (Hh [] [x00] true true ltac:(discriminate)) as E1. unfold dispatch in E1. rewrite EL in E1.
      apply (f_equal (fun x => match x with Ok (_, r) => r_pos r | _ => -1 end)) in E1.
      unfold rbindM, skip_tag, rret, set_rem, set_pos, at_ in E1. cbn [r_pos r_rem app] in E1.
      pose proof (DragPoint_bytes_nonempty v). change (zlen (@nil byte)) with 0 in E1. lia.
Qed.
Lemma Steps_padded {S} (arms : list (arm S)) s s' rs rs' : PointArms arms ->
  Steps (dispatch arms) s rs s' -> Padded (map fst arms) rs rs' -> Steps (dispatch arms) s rs' s'.
Proof. intros HA HS HP. exact (Steps_padded_gen _ _ _ HP S arms s s' eq_refl HA HS). Qed.

(** ** Items with their type number *)
Lemma typed_read {A} (m : rd_M A) (rd_of : u32 -> rd_M A) t b x c :
  (forall r, rd_of t r = m r) ->
  (exists r, m (at_ (w32_bytes t) b 0 "" true c) = Ok (x, r)) ->
  exists r, (y <- get_u32_no_remaining_update ;; rd_of y) (rd_new c (w32_bytes t ++ b)) = Ok (x, r).
Proof.
  intros E (r & H). exists r. rewrite rd_new_at.
  erewrite bindM_ok by (apply get_u32_nru_at). cbn [app]. rewrite E. exact H.
Qed.
(** [GameItem_read] after its type number. *)
Definition GameItem_read_of (t : u32) : rd_M GameItem :=
  ltac:(let e := eval unfold GameItem_read in GameItem_read in
        match e with rbindM _ ?k => let e' := eval cbv beta in (k t) in exact e' end).
Lemma typed_read_arms {S} (arms : list (arm S)) init (ctor : S -> GameItem) (t : u32) rs v c :
  (forall r, GameItem_read_of t r = (x <- read_arms arms init ;; rret (ctor x)) r) ->
  Steps (dispatch arms) init rs v ->
  gameitem_read c (w32_bytes t ++ enc (rs ++ [endb])) = Ok (ctor v).
Proof.
  intros E HS. unfold gameitem_read.
  destruct (typed_read (x <- read_arms arms init ;; rret (ctor x)) GameItem_read_of t (enc (rs ++ [endb])) (ctor v) c E) as [r H].
  - unfold rbindM. rewrite <- (app_nil_r (enc (rs ++ [endb]))).
    rewrite (read_arms_steps arms init rs v (w32_bytes t) [] "" true c HS (fun _ => eq_refl)). eexists. reflexivity.
  - change GameItem_read with (y <- get_u32_no_remaining_update ;; GameItem_read_of y). rewrite H. reflexivity.
Qed.

Lemma typed_write n m b : wapp m b -> Closes m -> write_with_type n m = Ok (w32_bytes (Z_to_w32 n) ++ b).
Proof.
  intros HW HC. unfold write_with_type, run_writer, wseq.
  set (w0 := mkWr (w32_bytes (Z_to_w32 n)) 0 "" 4).
  change (write_u32 (Z_to_w32 n) wr_new) with (Ok w0).
  assert (H0 : Wc w0 (w32_bytes (Z_to_w32 n))) by (apply Wclosed_Wc; split; reflexivity).
  destruct (HW w0 _ H0) as (w & E & (w' & E' & C1 & C2)). rewrite E. unfold end_tag in E'.
  rewrite (HC _ _ E) in E'. cbn in E'. injection E' as <-. rewrite C2. reflexivity.
Qed.

(** ** Items of unknown type *)
Lemma Generic_term : Term Generic_read.
Proof.
  apply Term_run_loop. intros t s. unfold Generic_handler. destruct (_ =? _)%string.
  - apply Term_bind; [apply Term_get_wide_string|intros; apply Term_ret].
  - apply Term_bind; [apply Term_get_record_data|intros; apply Term_ret].
Qed.
Lemma Generic_yields : Yields Generic_read (fun _ => True).
Proof.
  apply Yields_run_loop; [|exact I]. intros t s _. unfold Generic_handler. destruct (_ =? _)%string.
  - eapply Yields_bind; [apply Yields_wstring|intros; apply Yields_ret, I].
  - eapply Yields_bind; [apply Yields_record_data|intros; apply Yields_ret, I].
Qed.

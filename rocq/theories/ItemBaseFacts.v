(** Tactics and lemmas used by the generated facts about game items. *)
From Verif Require Import Base Text Biff Quantize Common Enums ItemBase.
From Verif Require Import BaseFacts TextFacts BiffFacts CommonFacts TermFacts QuantizeFacts EnumsFacts.

Lemma Steps_eq {S} (h : string -> S -> rd_M S) d rs s v : Steps h d rs s -> s = v -> Steps h d rs v.
Proof. intros H <-. exact H. Qed.
Lemma ArmH_eq {S} (a : S -> rd_M S) n p s s1 s2 : ArmH a n p s s1 -> s1 = s2 -> ArmH a n p s s2.
Proof. intros H <-. exact H. Qed.

(** ** Complete writers *)
(** [m] ends by closing its last record. *)
Definition Closes (m : wr_M) : Prop := forall w w', m w = Ok w' -> w_tag w' = ""%string.
Lemma Closes_seq a b : Closes b -> Closes (a >>> b).
Proof. intros H w w' E. unfold wseq in E. destruct (a w); [|discriminate]. exact (H _ _ E). Qed.
Lemma Closes_end_tag : Closes end_tag.
Proof.
  intros w w' E. unfold end_tag in E. destruct (w_tag w =? "")%string eqn:T.
  - injection E as <-. apply String.eqb_eq, T.
  - destruct (try_u32 _); [|discriminate]. injection E as <-. reflexivity.
Qed.
Lemma Closes_close : Closes (close true).
Proof. apply Closes_seq, Closes_end_tag. Qed.

Lemma run_wapp m b : wapp m b -> Closes m -> run_writer m = Ok b.
Proof.
  intros H C. destruct (H wr_new [] Wc_new) as (w & E & (w' & E' & C1 & C2)).
  unfold run_writer. rewrite E. unfold end_tag in E'. rewrite (C _ _ E) in E'.
  cbn in E'. injection E' as <-. rewrite C2. reflexivity.
Qed.

Lemma item_roundtrip {S} (write : S -> wr_M) (arms : list (arm S)) dflt (recs : S -> list rec) v :
  wapp (write v) (enc (recs v ++ [endb])) -> Closes (write v) -> Steps (dispatch arms) dflt (recs v) v ->
  exists b, run_writer (write v) = Ok b /\ reads_as (read_arms arms dflt) b v.
Proof.
  intros HW HC HS. exists (enc (recs v ++ [endb])). split; [apply run_wapp; assumption|].
  apply read_arms_reads, HS.
Qed.

(** ** Tactics *)
Ltac split_ok H :=
  lazymatch type of H with
  | (_ && _) = true => let H' := fresh "H" in apply andb_true_iff in H; destruct H as [H H']; split_ok H
  | _ => idtac
  end.

Ltac armh_enum lem :=
  eapply (ArmH_enum _ _ (fun s y => _)); first [apply Gets_enum | apply Gets_enum_i32]; apply lem; asm.
Ltac srec_enum lem := eapply S_rec; [reflexivity | reflexivity | reflexivity | armh_enum lem | cbv beta].
Ltac sopt_enum setf getf lem :=
  eapply (S_opt setf getf); [intros []; reflexivity | reflexivity | reflexivity | intros; reflexivity | reflexivity
                       | intros; okhyp; armh_enum lem | cbv beta].
Lemma size_ok_data d : data_ok d = true -> size_ok (zlen d) = true.
Proof. unfold data_ok, fits, size_ok, two32. pose proof (zlen_nonneg d). lia. Qed.
Ltac sopt_data setf getf :=
  eapply (S_opt setf getf); [intros []; reflexivity | reflexivity | reflexivity | intros; okhyp; apply size_ok_data; asm | reflexivity
                       | intros; eapply (ArmH_data (fun s y => _)) | cbv beta].
Ltac srec_data :=
  eapply S_rec; [reflexivity | apply size_ok_data; asm | reflexivity | eapply (ArmH_data (fun s y => _)) | cbv beta].
Ltac srec_font :=
  eapply S_rec0; [reflexivity | reflexivity | eapply (ArmH_get0 _ (fun s y => _)); apply Gets0_font; asm | cbv beta].
Ltac spoints setf getf :=
  eapply (S_points setf getf);
  [ intros []; reflexivity | reflexivity | intros ? ? []; reflexivity | asm | reflexivity | reflexivity
  | intros; apply (ArmH_point (fun s y => setf (getf s ++ [y]) s)); asm
  | cbv beta ].

Lemma S_tmon {S} (get : S -> TimerData) (set : TimerData -> S -> S) arms b s rs s'' :
  lookup "TMON" arms = Some (fun s => x <- (x <- get_bool ;; rret (set_td_is_enabled x (get s))) ;; rret (set x s)) ->
  Steps (dispatch arms) (set (set_td_is_enabled b (get s)) s) rs s'' ->
  Steps (dispatch arms) s (R "TMON" (bool_bytes b) :: rs) s''.
Proof.
  intros L. eapply S_rec; [reflexivity|apply size_ok_bool|exact L|].
  intros pre rest t w c _. unfold rbindM. rewrite Gets_bool by lia. rewrite Z.sub_diag. reflexivity.
Qed.
Lemma S_tmin {S} (get : S -> TimerData) (set : TimerData -> S -> S) arms b s rs s'' :
  lookup "TMIN" arms = Some (fun s => x <- (x <- get_i32 ;; rret (set_td_interval x (get s))) ;; rret (set x s)) ->
  Steps (dispatch arms) (set (set_td_interval b (get s)) s) rs s'' ->
  Steps (dispatch arms) s (R "TMIN" (w32_bytes b) :: rs) s''.
Proof.
  intros L. eapply S_rec; [reflexivity|reflexivity|exact L|].
  intros pre rest t w c _. unfold rbindM. rewrite Gets_i32 by lia. rewrite Z.sub_diag. reflexivity.
Qed.
Ltac stimer getf setf := first [eapply (S_tmon getf setf) | eapply (S_tmin getf setf)]; [reflexivity|].

Lemma wapp_timer_cons t b rs : wapp b (enc rs) ->
  wapp (TimerData_write t >>> b)
       (enc (R "TMON" (bool_bytes (td_is_enabled t)) :: R "TMIN" (w32_bytes (td_interval t)) :: rs)).
Proof.
  intros H. change (R "TMON" _ :: R "TMIN" _ :: rs) with (timer_recs t ++ rs).
  apply wapp_app; [apply wapp_timer|exact H].
Qed.
Lemma wapp_shared_cons {X} (d : HasShared X) v b rs :
  opt_ok str_ok (sh_editor_layer_name d v) = true -> opt_ok str_ok (sh_part_group_name d v) = true ->
  wapp b (enc rs) ->
  wapp (write_shared_attributes d v >>> b)
       (enc (R "LOCK" (bool_bytes (sh_is_locked d v)) ::
             orec (sh_editor_layer d v) (fun x => R "LAYR" (w32_bytes x)) ++
             orec (sh_editor_layer_name d v) (fun x => R "LANR" (string_bytes x)) ++
             orec (sh_part_group_name d v) (fun x => R "GRUP" (string_bytes x)) ++
             orec (sh_editor_layer_visibility d v) (fun x => R "LVIS" (bool_bytes x)) ++ rs)).
Proof.
  intros H1 H2 H.
  match goal with |- wapp _ (enc ?l) => replace l with (shared_recs d v ++ rs) end.
  - apply wapp_app; [apply wapp_shared; unfold shared_ok; rewrite H1, H2; reflexivity|exact H].
  - unfold shared_recs. recs_norm. reflexivity.
Qed.
Ltac wtimer := apply wapp_timer_cons.
Ltac wshared d := apply (wapp_shared_cons d); [asm|asm|].
Ltac wpoints := apply wapp_app; [apply wapp_points; [reflexivity|asm]|].
Ltac wrec_font := apply wapp_cons; [apply wapp_font; [reflexivity|asm]|].
Ltac closes :=
  repeat (lazymatch goal with |- Closes (close true) => fail | _ => apply Closes_seq end); apply Closes_close.

(** ** Animation frames *)
Definition anim_ok (lens : option (list u32)) (frames : option (list bytes)) : bool :=
  match lens, frames with
  | Some ((_ :: _) as ls), Some fs => (zlen ls =? zlen fs) && forallb data_ok fs
  | None, None => true
  | _, _ => false
  end.
Definition anim_data_ok (frames : option (list bytes)) : bool :=
  match frames with Some fs => forallb data_ok fs | None => true end.
Definition anim_recs (lens : option (list u32)) (frames : option (list bytes)) : list rec :=
  match lens, frames with
  | Some ls, Some fs => flat_map (fun '(l, f) => [R "M3AY" (w32_bytes l); R "M3AX" f]) (combine ls fs)
  | _, _ => []
  end.
Lemma wapp_anim lens frames : anim_ok lens frames = true ->
  wapp (write_animation lens frames) (enc (anim_recs lens frames)).
Proof.
  unfold anim_ok, write_animation, anim_recs.
  destruct lens as [ls|]; [|intros; apply wapp_skip].
  destruct frames as [fs|]; [|intros; apply wapp_skip].
  intros H. assert (HD : forallb data_ok fs = true) by (destruct ls; [discriminate|apply andb_true_iff in H; apply H]).
  clear H. revert fs HD. induction ls as [|l ls IH]; intros fs HD; cbn [combine wfor flat_map]; [apply wapp_skip|].
  destruct fs as [|f fs]; cbn [wfor flat_map app]; [apply wapp_skip|].
  cbn [forallb] in HD. apply andb_true_iff in HD. destruct HD as [H1 H2].
  eapply wapp_ext with (m' := write_tagged_u32 "M3AY" l >>> write_tagged_data "M3AX" f >>> _).
  { intros w. unfold wseq. destruct (write_tagged_u32 _ _ w); [|reflexivity]. reflexivity. }
  apply wapp_cons; [apply wapp_u32; reflexivity|]. apply wapp_cons; [apply wapp_data; [reflexivity|exact H1]|].
  apply IH, H2.
Qed.
Ltac wanim := apply wapp_app; [apply wapp_anim; asm|].

Lemma S_anim_some {S} (set2 : option (list u32) -> option (list bytes) -> S -> S) arms a1 a2 (s : S) rs s'' :
  lookup "M3AY" arms = Some a1 -> lookup "M3AX" arms = Some a2 ->
  (forall l d x s, ArmH a1 (zlen (w32_bytes x)) (w32_bytes x) (set2 l d s) (set2 (opt_push l x) d s)) ->
  (forall l d x s, ArmH a2 (zlen x) x (set2 l d s) (set2 l (opt_push d x) s)) ->
  forall ls fs pl pf, zlen ls = zlen fs -> forallb data_ok fs = true ->
  Steps (dispatch arms) (set2 (Some (pl ++ ls)) (Some (pf ++ fs)) s) rs s'' ->
  Steps (dispatch arms) (set2 (Some pl) (Some pf) s)
        (flat_map (fun '(l, f) => [R "M3AY" (w32_bytes l); R "M3AX" f]) (combine ls fs) ++ rs) s''.
Proof.
  intros L1 L2 A1 A2. induction ls as [|l ls IH]; intros fs pl pf HL HD HS.
  - destruct fs as [|f fs]; [|change (zlen (@nil u32)) with 0 in HL; rewrite zlen_cons in HL; pose proof (zlen_nonneg fs); lia].
    rewrite !app_nil_r in HS. exact HS.
  - destruct fs as [|f fs]; [change (zlen (@nil bytes)) with 0 in HL; rewrite zlen_cons in HL; pose proof (zlen_nonneg ls); lia|].
    cbn [forallb] in HD. apply andb_true_iff in HD. destruct HD as [H1 H2]. rewrite !zlen_cons in HL.
    cbn [combine flat_map app].
    eapply S_rec; [reflexivity|reflexivity|exact L1|apply A1|].
    eapply S_rec; [reflexivity|apply size_ok_data, H1|exact L2|apply A2|].
    cbn [opt_push]. apply IH; [lia|exact H2|]. rewrite <- !app_assoc. exact HS.
Qed.
Lemma S_anim {S} (set2 : option (list u32) -> option (list bytes) -> S -> S)
      (get1 : S -> option (list u32)) (get2 : S -> option (list bytes)) arms a1 a2 (s : S) lens frames rs s'' :
  (forall s, set2 (get1 s) (get2 s) s = s) -> get1 s = None -> get2 s = None -> anim_ok lens frames = true ->
  lookup "M3AY" arms = Some a1 -> lookup "M3AX" arms = Some a2 ->
  (forall l d x s, ArmH a1 (zlen (w32_bytes x)) (w32_bytes x) (set2 l d s) (set2 (opt_push l x) d s)) ->
  (forall l d x s, ArmH a2 (zlen x) x (set2 l d s) (set2 l (opt_push d x) s)) ->
  Steps (dispatch arms) (set2 lens frames s) rs s'' ->
  Steps (dispatch arms) s (anim_recs lens frames ++ rs) s''.
Proof.
  intros Heta N1 N2 HO L1 L2 A1 A2 HS.
  assert (H0 : set2 None None s = s) by (rewrite <- N1, <- N2 at 1; apply Heta). unfold anim_ok in HO. unfold anim_recs.
  destruct lens as [[|l ls]|]; [destruct frames; discriminate| |].
  - destruct frames as [[|f fs]|]; [|apply andb_true_iff in HO; destruct HO as [HL HD]|discriminate].
    { apply andb_true_iff in HO. destruct HO as [HO _]. change (zlen (@nil bytes)) with 0 in HO. rewrite zlen_cons in HO. pose proof (zlen_nonneg ls). lia. }
    cbn [forallb] in HD. apply andb_true_iff in HD. destruct HD as [H1 H2]. rewrite !zlen_cons in HL.
    cbn [combine flat_map app]. rewrite <- H0.
    eapply S_rec; [reflexivity|reflexivity|exact L1|apply A1|].
    eapply S_rec; [reflexivity|apply size_ok_data, H1|exact L2|apply A2|].
    cbn [opt_push]. apply (S_anim_some set2 arms a1 a2 s rs s'' L1 L2 A1 A2 ls fs [l] [f]); [lia|exact H2|exact HS].
  - destruct frames; [discriminate|]. cbn [app]. rewrite H0 in HS. exact HS.
Qed.

(** ** Termination and resave *)
Ltac tm :=
  lazymatch goal with
  | |- Term (rbindM _ _) => apply Term_bind; [tm | intros; tm]
  | |- Term (rlift _) => apply Term_lift; unfold no_oof; auto
  | _ => first [term1 | apply DragPoint_term]
  end.
Ltac item_term :=
  cbn [app lift_arms map TimerData_arms];
  repeat (apply Forall_cons; [intro; cbn [snd]; tm|]); apply Forall_nil.

Lemma Yields_lift_eq {A} (x : res A) : Yields (rlift x) (fun y => x = Ok y).
Proof. apply Yields_lift. auto. Qed.
Lemma Yields_dili : Yields get_dequantized8 (fun x => dili_ok x = true).
Proof.
  eapply Yields_bind; [apply Yields_any, Keeps_u32|]. intros q _. apply Yields_ret, dili_dequantized.
Qed.
Lemma Yields_true {A} (x : A) : Yields (rret x) (fun y => x = y).
Proof. apply Yields_ret. reflexivity. Qed.
Lemma forallb_snoc {A} (f : A -> bool) l x : forallb f l = true -> f x = true -> forallb f (l ++ [x]) = true.
Proof. intros H1 H2. rewrite forallb_app, H1. cbn. rewrite H2. reflexivity. Qed.
Lemma anim_data_push o x : anim_data_ok o = true -> data_ok x = true -> anim_data_ok (opt_push o x) = true.
Proof. destruct o; cbn; intros H1 H2; [apply forallb_snoc; assumption|rewrite H2; reflexivity]. Qed.

Ltac ok_leaf :=
  first [ assumption
        | apply forallb_snoc; assumption
        | apply anim_data_push; assumption
        | match goal with E : _ |- _ => cbv beta in E; lazymatch type of E with GateType_of_u32 _ = Ok _ => exact (GateType_of_ok _ _ E) | ToneMapper_of_u32 _ = Ok _ => exact (ToneMapper_of_ok _ _ E) end end ].
Ltac ok_step Hs :=
  lazymatch type of Hs with
  | (_ && _) = true =>
      let H := fresh "H" in apply andb_true_iff in Hs; destruct Hs as [Hs H]; apply andb_true_iff; split;
      [ok_step Hs | first [exact H | ok_leaf]]
  | _ => first [exact Hs | ok_leaf]
  end.
Ltac yl fin :=
  lazymatch goal with
  | |- Yields (rbindM (rbindM _ _) _) _ =>
      eapply Yields_bind; [apply Yields_any; repeat (apply Keeps_bind; [keep1|intros]); apply Keeps_ret | intros ? _; yl fin]
  | |- Yields (rbindM (rlift _) _) _ => eapply Yields_bind; [apply Yields_lift_eq | intros ? ?; yl fin]
  | |- Yields (rbindM _ _) _ =>
      eapply Yields_bind; [first [yield1 | apply Yields_dili | apply DragPoint_yields] | intros ? ?; yl fin]
  | |- Yields (rret _) _ => apply Yields_ret; fin
  end.
Ltac item_yields ok :=
  cbn [app lift_arms map TimerData_arms];
  repeat (apply Forall_cons; [let s := fresh "s" in let Hs := fresh "Hs" in
                              intros s Hs; cbn [snd]; yl ltac:(first [exact Hs | unfold ok in Hs |- *; ok_step Hs])|]);
  apply Forall_nil.

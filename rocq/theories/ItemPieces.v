(** The records of an item as the pieces of [SpecItems]. *)
From Verif Require Import Base Text Biff Quantize Common Enums ItemBase GameItem.
From Verif Require Import ItemWall ItemFlipper ItemTimer ItemPlunger ItemTextBox ItemBumper ItemTrigger ItemLight ItemKicker ItemDecal ItemGate ItemSpinner ItemRamp ItemReel ItemLightSequencer ItemPrimitive ItemFlasher ItemRubber ItemHitTarget ItemBall ItemPartGroup.
From Verif Require Import BaseFacts TextFacts BiffFacts CommonFacts TermFacts QuantizeFacts EnumsFacts ItemBaseFacts.
From Verif Require Import ItemWallFacts ItemFlipperFacts ItemTimerFacts ItemPlungerFacts ItemTextBoxFacts ItemBumperFacts ItemTriggerFacts ItemLightFacts ItemKickerFacts ItemDecalFacts ItemGateFacts ItemSpinnerFacts ItemRampFacts ItemReelFacts ItemLightSequencerFacts ItemPrimitiveFacts ItemFlasherFacts ItemRubberFacts ItemHitTargetFacts ItemBallFacts ItemPartGroupFacts.
From Verif Require Import GameItemBaseFacts GameItemFacts GameItemStored SpecBiff SpecItems RecordFacts.

(** Records that are a piece. *)
Definition Piece (r : rec) : Prop :=
  (exists t p, tag_ok t = true /\ r = R t p) \/ (exists v, DragPoint_ok v = true /\ r = R0 "DPNT" (DragPoint_bytes v)) \/ (exists raw, r = R0 "FONT" raw).
Definition Pieces : list rec -> Prop := Forall Piece.
Lemma Pieces_nil : Pieces []. Proof. constructor. Qed.
Lemma Pieces_R t p rs : tag_ok t = true -> Pieces rs -> Pieces (R t p :: rs).
Proof. intros Ht H. constructor; [left; eauto|exact H]. Qed.
Lemma Pieces_font p rs : Pieces rs -> Pieces (R0 "FONT" p :: rs).
Proof. intros H. constructor; [right; right; eauto|exact H]. Qed.
Lemma Pieces_opt {A} (o : option A) (t : string) (p : A -> bytes) rs : tag_ok t = true -> Pieces rs -> Pieces (orec o (fun x => R t (p x)) ++ rs).
Proof. intros Ht H. destruct o; [apply Pieces_R; [exact Ht|]|]; exact H. Qed.
Lemma Pieces_points l rs : forallb DragPoint_ok l = true -> Pieces rs -> Pieces (map (fun x => R0 "DPNT" (DragPoint_bytes x)) l ++ rs).
Proof.
  intros HL H. induction l as [|x l IH]; [exact H|]. cbn [forallb] in HL. apply andb_true_iff in HL. destruct HL as [Hx HL].
  cbn [map app]. constructor; [right; left; eauto|]. apply IH, HL.
Qed.
Lemma Pieces_anim a b rs : Pieces rs -> Pieces (anim_recs a b ++ rs).
Proof.
  intros H. unfold anim_recs. destruct a, b; try exact H.
  match goal with |- Pieces (?f ++ rs) => assert (HP : Pieces f) end.
  { match goal with |- Pieces (flat_map _ ?l) => induction l as [|[x y] l' IH] end; [constructor|].
    cbn [flat_map app]. repeat (apply Pieces_R; [reflexivity|]). exact IH. }
  apply Forall_app. split; assumption.
Qed.
Ltac pieces := repeat first
  [ apply Pieces_nil | apply Pieces_R; [reflexivity|] | apply Pieces_font
  | apply (Pieces_opt _ _ (fun x => _)); [reflexivity|] | apply Pieces_points; [asm|] | apply Pieces_anim ].
Lemma Wall_pieces v : Wall_ok v = true -> Pieces (Wall_recs v).
Proof. intros H. unfold Wall_ok in H. split_ok H. unfold Wall_recs. pieces. Qed.
Lemma Flipper_pieces v : Flipper_ok v = true -> Pieces (Flipper_recs v).
Proof. intros H. unfold Flipper_ok in H. split_ok H. unfold Flipper_recs. pieces. Qed.
Lemma Timer_pieces v : Timer_ok v = true -> Pieces (Timer_recs v).
Proof. intros H. unfold Timer_ok in H. split_ok H. unfold Timer_recs. pieces. Qed.
Lemma Plunger_pieces v : Plunger_ok v = true -> Pieces (Plunger_recs v).
Proof. intros H. unfold Plunger_ok in H. split_ok H. unfold Plunger_recs. pieces. Qed.
Lemma TextBox_pieces v : TextBox_ok v = true -> Pieces (TextBox_recs v).
Proof. intros H. unfold TextBox_ok in H. split_ok H. unfold TextBox_recs. pieces. Qed.
Lemma Bumper_pieces v : Bumper_ok v = true -> Pieces (Bumper_recs v).
Proof. intros H. unfold Bumper_ok in H. split_ok H. unfold Bumper_recs. pieces. Qed.
Lemma Trigger_pieces v : Trigger_ok v = true -> Pieces (Trigger_recs v).
Proof. intros H. unfold Trigger_ok in H. split_ok H. unfold Trigger_recs. pieces. Qed.
Lemma Light_pieces v : Light_ok v = true -> Pieces (Light_recs v).
Proof. intros H. unfold Light_ok in H. split_ok H. unfold Light_recs. pieces. Qed.
Lemma Kicker_pieces v : Kicker_ok v = true -> Pieces (Kicker_recs v).
Proof. intros H. unfold Kicker_ok in H. split_ok H. unfold Kicker_recs. pieces. Qed.
Lemma Decal_pieces v : Decal_ok v = true -> Pieces (Decal_recs v).
Proof. intros H. unfold Decal_ok in H. split_ok H. unfold Decal_recs. pieces. Qed.
Lemma Gate_pieces v : Gate_ok v = true -> Pieces (Gate_recs v).
Proof. intros H. unfold Gate_ok in H. split_ok H. unfold Gate_recs. pieces. Qed.
Lemma Spinner_pieces v : Spinner_ok v = true -> Pieces (Spinner_recs v).
Proof. intros H. unfold Spinner_ok in H. split_ok H. unfold Spinner_recs. pieces. Qed.
Lemma Ramp_pieces v : Ramp_ok v = true -> Pieces (Ramp_recs v).
Proof. intros H. unfold Ramp_ok in H. split_ok H. unfold Ramp_recs. pieces. Qed.
Lemma Reel_pieces v : Reel_ok v = true -> Pieces (Reel_recs v).
Proof. intros H. unfold Reel_ok in H. split_ok H. unfold Reel_recs. pieces. Qed.
Lemma LightSequencer_pieces v : LightSequencer_ok v = true -> Pieces (LightSequencer_recs v).
Proof. intros H. unfold LightSequencer_ok in H. split_ok H. unfold LightSequencer_recs. pieces. Qed.
Lemma Primitive_pieces v : Primitive_ok v = true -> Pieces (Primitive_recs v).
Proof. intros H. unfold Primitive_ok in H. split_ok H. unfold Primitive_recs. pieces. Qed.
Lemma Flasher_pieces v : Flasher_ok v = true -> Pieces (Flasher_recs v).
Proof. intros H. unfold Flasher_ok in H. split_ok H. unfold Flasher_recs. pieces. Qed.
Lemma Rubber_pieces v : Rubber_ok v = true -> Pieces (Rubber_recs v).
Proof. intros H. unfold Rubber_ok in H. split_ok H. unfold Rubber_recs. pieces. Qed.
Lemma HitTarget_pieces v : HitTarget_ok v = true -> Pieces (HitTarget_recs v).
Proof. intros H. unfold HitTarget_ok in H. split_ok H. unfold HitTarget_recs. pieces. Qed.
Lemma Ball_pieces v : Ball_ok v = true -> Pieces (Ball_recs v).
Proof. intros H. unfold Ball_ok in H. split_ok H. unfold Ball_recs. pieces. Qed.
Lemma PartGroup_pieces v : PartGroup_ok v = true -> Pieces (PartGroup_recs v).
Proof. intros H. unfold PartGroup_ok in H. split_ok H. unfold PartGroup_recs. pieces. Qed.
Lemma GameItem_pieces i : GameItem_ok i = true -> Pieces (GameItem_recs i).
Proof.
  destruct i; cbn [GameItem_ok GameItem_recs]; intros H.
  - apply Wall_pieces, H.
  - apply Flipper_pieces, H.
  - apply Timer_pieces, H.
  - apply Plunger_pieces, H.
  - apply TextBox_pieces, H.
  - apply Bumper_pieces, H.
  - apply Trigger_pieces, H.
  - apply Light_pieces, H.
  - apply Kicker_pieces, H.
  - apply Decal_pieces, H.
  - apply Gate_pieces, H.
  - apply Spinner_pieces, H.
  - apply Ramp_pieces, H.
  - apply Reel_pieces, H.
  - apply LightSequencer_pieces, H.
  - apply Primitive_pieces, H.
  - apply Flasher_pieces, H.
  - apply Rubber_pieces, H.
  - apply HitTarget_pieces, H.
  - apply Ball_pieces, H.
  - apply PartGroup_pieces, H.
  - discriminate H.
Qed.

Definition rec_of_piece (p : piece) : rec :=
  match p with Plain r => rec_of r | Point rs => R0 "DPNT" (enc (map rec_of rs ++ [endb])) | Font raw => R0 "FONT" raw end.
(** Pieces with usable tags, whose drag points are those of [DragPoint_recs]. *)
Definition piece_good (p : piece) : Prop :=
  match p with
  | Plain r => tag_ok (fst r) = true
  | Point rs => exists v, DragPoint_ok v = true /\ map rec_of rs = DragPoint_recs v
  | Font _ => True
  end.
Lemma DragPoint_plain v : exists rs, map rec_of rs = DragPoint_recs v /\ Forall (fun r => tag_ok (fst r) = true) rs.
Proof.
  assert (H : Forall (fun r => exists t p, tag_ok t = true /\ r = R t p) (DragPoint_recs v)).
  { unfold DragPoint_recs.
    repeat first [ constructor; [do 2 eexists; split; [|reflexivity]; reflexivity|]
                 | match goal with |- Forall _ (orec ?o _ ++ _) => destruct o; cbn [orec app] end
                 | match goal with |- Forall _ (orec ?o _) => destruct o; cbn [orec app] end | constructor ]. }
  induction H as [|r rs (t & p & Ht & ->) _ (l & E & HF)]; [exists []; split; [reflexivity|constructor]|].
  exists ((t, p) :: l). split; [cbn [map]; rewrite E; reflexivity|constructor; assumption].
Qed.
Lemma Pieces_exist rs : Pieces rs -> exists ps, map rec_of_piece ps = rs /\ Forall piece_good ps.
Proof.
  induction 1 as [|r rs H _ (ps & E & HF)]; [exists []; split; [reflexivity|constructor]|].
  destruct H as [(t & p & Ht & ->)|[(v & Hv & ->)|(raw & ->)]].
  - exists (Plain (t, p) :: ps). split; [cbn [map]; rewrite E; reflexivity|constructor; assumption].
  - destruct (DragPoint_plain v) as (l & El & _). exists (Point l :: ps). split.
    + cbn [map rec_of_piece]. rewrite E, El. reflexivity.
    + constructor; [exists v; auto|assumption].
  - exists (Font raw :: ps). split; [cbn [map]; rewrite E; reflexivity|constructor; [exact I|assumption]].
Qed.
Lemma plain_bytes r : tag_ok (fst r) = true -> enc_rec (rec_of r) = record_bytes r.
Proof. destruct r as [t p]. intros H. apply record_bytes_enc, tag_ok_valid, H. Qed.
Lemma plains_bytes rs : Forall (fun r => tag_ok (fst r) = true) rs -> enc (map rec_of rs ++ [endb]) = stream_bytes rs.
Proof.
  intros H. rewrite enc_app. unfold stream_bytes. f_equal. induction H as [|r rs Hr _ IH]; [reflexivity|].
  cbn [map flat_map]. rewrite enc_cons, plain_bytes, IH by exact Hr. reflexivity.
Qed.
Lemma DragPoint_rec_tags v : Forall (fun r => tag_ok (rec_tag r) = true) (DragPoint_recs v).
Proof.
  destruct (DragPoint_plain v) as (rs & E & HF). rewrite <- E. apply Forall_map. eapply Forall_impl; [|exact HF]. intros [t p] H. exact H.
Qed.
(** The tags in a piece are usable. *)
Definition piece_tags (p : piece) : Prop :=
  match p with Plain r => tag_ok (fst r) = true | Point rs => Forall (fun r => tag_ok (fst r) = true) rs | Font _ => True end.
Lemma good_tags p : piece_good p -> piece_tags p.
Proof.
  destruct p as [r|rs|raw]; cbn; auto. intros (v & _ & E). pose proof (DragPoint_rec_tags v) as H. rewrite <- E in H.
  rewrite Forall_map in H. eapply Forall_impl; [|exact H]. intros [t p] Ht. exact Ht.
Qed.
Lemma piece_bytes_enc p : piece_tags p -> enc_rec (rec_of_piece p) = piece_bytes p.
Proof.
  destruct p as [r|rs|raw]; cbn [piece_tags rec_of_piece piece_bytes]; intros H.
  - apply plain_bytes, H.
  - unfold enc_rec, R0, hdr. cbn [rec_tag rec_n rec_p]. rewrite (plains_bytes rs H). reflexivity.
  - reflexivity.
Qed.
Lemma item_bytes_enc t ps : Forall piece_tags ps -> w32_bytes t ++ enc (map rec_of_piece ps ++ [endb]) = item_bytes (w32_to_Z t) ps.
Proof.
  intros H. unfold item_bytes. rewrite <- le32_w32, Z_to_w32_to_Z. f_equal. rewrite enc_app. f_equal.
  induction H as [|p ps Hp _ IH]; [reflexivity|]. cbn [map flat_map]. rewrite enc_cons, piece_bytes_enc, IH by exact Hp. reflexivity.
Qed.
Lemma valid_record_ok r : valid_record r -> tag_ok (fst r) = true /\ size_ok (zlen (snd r)) = true /\ fst r <> "ENDB"%string.
Proof. destruct r as [t p]. apply valid_rec_ok. Qed.
Lemma Inserted_padded known rs rs' : Inserted known rs rs' -> Padded known (map rec_of rs) (map rec_of rs').
Proof.
  induction 1 as [|r rs rs' _ IH|r rs rs' Hr Hk _ IH]; cbn [map]; [constructor|constructor; exact IH|].
  destruct (valid_record_ok r Hr) as (Ht & Hs & He). destruct r as [t p]. apply Padded_extra; assumption.
Qed.
Lemma Inserted_tags known rs rs' : Inserted known rs rs' -> Forall (fun r => tag_ok (fst r) = true) rs ->
  Forall (fun r => tag_ok (fst r) = true) rs'.
Proof.
  induction 1 as [|r rs rs' _ IH|r rs rs' Hr Hk _ IH]; intros H; [exact H| |].
  - inversion H; subst. constructor; auto.
  - constructor; [apply valid_record_ok, Hr|auto].
Qed.
Lemma ItemInserted_padded known ps ps' : ItemInserted known (map fst DragPoint_arms) ps ps' -> Forall piece_good ps ->
  Padded known (map rec_of_piece ps) (map rec_of_piece ps') /\ Forall piece_tags ps'.
Proof.
  induction 1 as [|p ps ps' _ IH|r ps ps' Hr Hk _ IH|rs rs' ps ps' HI _ IH]; intros HG; cbn [map].
  - split; constructor.
  - inversion HG; subst. destruct (IH H2) as [H3 H4]. split; [constructor; exact H3|constructor; [apply good_tags|]; assumption].
  - destruct (IH HG) as [H3 H4]. destruct (valid_record_ok r Hr) as (Ht & Hs & He).
    split; [|constructor; [exact Ht|assumption]]. destruct r as [t p]. apply Padded_extra; assumption.
  - inversion HG as [|? ? Hg HG']; subst. destruct (IH HG') as [H3 H4]. pose proof (good_tags _ Hg) as Ht. cbn [piece_tags] in Ht.
    destruct Hg as (v & Hv & E). split.
    + cbn [rec_of_piece]. rewrite E. apply (Padded_point known v (map rec_of rs')); [exact Hv|rewrite <- E; apply Inserted_padded, HI|exact H3].
    + constructor; [exact (Inserted_tags _ _ _ HI Ht)|exact H4].
Qed.

(** ** C03 *)
Lemma inserted_read i : GI_writable i = true -> GameItem_ok (GI_stored i) = true ->
  exists t ps, gameitem_write i = Ok (item_bytes t ps) /\
    forall ps' c, ItemInserted (GameItem_tags i) (map fst DragPoint_arms) ps ps' ->
      gameitem_read c (item_bytes t ps') = Ok (GI_stored i).
Proof.
  intros HW HO. exists (w32_to_Z (GameItem_type i)).
  destruct (Pieces_exist _ (GameItem_pieces _ HO)) as (ps & E & HG). exists ps.
  assert (ET : GameItem_type (GI_stored i) = GameItem_type i) by (destruct i; reflexivity).
  assert (EG : GameItem_tags (GI_stored i) = GameItem_tags i) by (destruct i; reflexivity).
  split.
  - rewrite <- item_bytes_enc by (eapply Forall_impl; [|exact HG]; apply good_tags).
    rewrite E, (gameitem_write_stored i HW), (gameitem_write_ok _ HO), ET. reflexivity.
  - intros ps' c HI. destruct (ItemInserted_padded _ _ _ HI HG) as [HP HT]. rewrite <- item_bytes_enc by exact HT.
    rewrite <- ET. apply gameitem_read_padded; [exact HO|]. rewrite EG, <- E. exact HP.
Qed.

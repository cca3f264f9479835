(** What saving and loading makes of an arbitrary item: the few fields that are not stored as they are. *)
From Verif Require Import Base Text Biff Quantize Common Enums ItemBase ItemWall ItemPrimitive ItemHitTarget GameItem.
From Verif Require Import BaseFacts TextFacts BiffFacts CommonFacts TermFacts QuantizeFacts QuantizeMono EnumsFacts ItemBaseFacts.
From Verif Require Import ItemWallFacts ItemPrimitiveFacts ItemHitTargetFacts GameItemBaseFacts GameItemFacts.

(** The old "disable lighting" value is stored as an 8-bit code. *)
Definition dili_stored (o : option f32) : option f32 :=
  match o with
  | Some x => match quantize_unsigned_8 x with Ok q => Some (dequantize_unsigned_8 q) | _ => Some x end
  | None => None
  end.
(** It can be stored when it is not negative (and not a NaN). *)
Definition dili_writable (o : option f32) : bool :=
  match o with Some x => f32_ge0 (f32_value x) | None => true end.
(** Animation frames are stored as pairs (length, data); no pairs are stored as no frames. *)
Definition frames_stored (lens : option (list u32)) (frames : option (list bytes)) : option (list u32) * option (list bytes) :=
  match lens, frames with
  | Some ls, Some fs =>
      match combine ls fs with
      | [] => (None, None)
      | ps => (Some (map fst ps), Some (map snd ps))
      end
  | _, _ => (None, None)
  end.

Definition Wall_stored (v : Wall) : Wall := set_Wall_disable_lighting_top_old (dili_stored (Wall_disable_lighting_top_old v)) v.
Definition HitTarget_stored (v : HitTarget) : HitTarget :=
  set_HitTarget_disable_lighting_top_old (dili_stored (HitTarget_disable_lighting_top_old v)) v.
Definition Primitive_stored (v : Primitive) : Primitive :=
  let p := frames_stored (Primitive_compressed_animation_vertices_len v) (Primitive_compressed_animation_vertices_data v) in
  set_Primitive_compressed_animation_vertices_data (snd p)
  (set_Primitive_compressed_animation_vertices_len (fst p)
  (set_Primitive_disable_lighting_top_old (dili_stored (Primitive_disable_lighting_top_old v)) v)).

Definition GI_stored (i : GameItem) : GameItem :=
  match i with
  | GI_Wall v => GI_Wall (Wall_stored v)
  | GI_HitTarget v => GI_HitTarget (HitTarget_stored v)
  | GI_Primitive v => GI_Primitive (Primitive_stored v)
  | i => i
  end.
Definition GI_writable (i : GameItem) : bool :=
  match i with
  | GI_Wall v => dili_writable (Wall_disable_lighting_top_old v)
  | GI_HitTarget v => dili_writable (HitTarget_disable_lighting_top_old v)
  | GI_Primitive v => dili_writable (Primitive_disable_lighting_top_old v)
  | GI_Generic _ _ => false
  | _ => true
  end.

Lemma wopt_dili t o : dili_writable o = true ->
  wopt o (fun x => write_tagged_quantized8 t x) = wopt (dili_stored o) (fun x => write_tagged_quantized8 t x).
Proof.
  destruct o as [x|]; [|reflexivity]. cbn [dili_writable dili_stored]. intros H.
  destruct (quantize_unsigned_8 x) as [q|f] eqn:E; [|reflexivity].
  cbn [wopt]. unfold write_tagged_quantized8. rewrite E.
  rewrite (quantize_8_stable q); [reflexivity|]. exact (quantize_8_range x q E).
Qed.
Lemma combine_split {A B} (l : list (A * B)) : combine (map fst l) (map snd l) = l.
Proof. induction l as [|[a b] l IH]; cbn [map combine fst snd]; [reflexivity|]. rewrite IH. reflexivity. Qed.
Lemma write_animation_stored lens frames :
  write_animation lens frames = write_animation (fst (frames_stored lens frames)) (snd (frames_stored lens frames)).
Proof.
  destruct lens as [ls|]; [|reflexivity]. destruct frames as [fs|]; [|reflexivity].
  cbn [frames_stored]. unfold write_animation. destruct (combine ls fs) as [|p ps] eqn:E; [reflexivity|].
  cbn [fst snd]. rewrite combine_split. reflexivity.
Qed.

Lemma Wall_write_stored v : dili_writable (Wall_disable_lighting_top_old v) = true -> Wall_write v = Wall_write (Wall_stored v).
Proof.
  intros H. unfold Wall_write at 1. rewrite (wopt_dili _ _ H). unfold Wall_stored.
  generalize (dili_stored (Wall_disable_lighting_top_old v)). intros o. clear H. destruct v. reflexivity.
Qed.
Lemma HitTarget_write_stored v : dili_writable (HitTarget_disable_lighting_top_old v) = true ->
  HitTarget_write v = HitTarget_write (HitTarget_stored v).
Proof.
  intros H. unfold HitTarget_write at 1. rewrite (wopt_dili _ _ H). unfold HitTarget_stored.
  generalize (dili_stored (HitTarget_disable_lighting_top_old v)). intros o. clear H. destruct v. reflexivity.
Qed.
Lemma Primitive_write_stored v : dili_writable (Primitive_disable_lighting_top_old v) = true ->
  Primitive_write v = Primitive_write (Primitive_stored v).
Proof.
  intros H. unfold Primitive_write at 1. rewrite (wopt_dili _ _ H).
  rewrite (write_animation_stored (Primitive_compressed_animation_vertices_len v)). unfold Primitive_stored.
  generalize (dili_stored (Primitive_disable_lighting_top_old v)). intros o.
  generalize (frames_stored (Primitive_compressed_animation_vertices_len v) (Primitive_compressed_animation_vertices_data v)).
  intros [p q]. cbn [fst snd]. clear H. destruct v. reflexivity.
Qed.
Lemma gameitem_write_stored i : GI_writable i = true -> gameitem_write i = gameitem_write (GI_stored i).
Proof.
  destruct i; cbn [GI_writable GI_stored]; intros H;
    try match goal with |- ?a = ?b => constr_eq a b; reflexivity end.
  - exact (f_equal (write_with_type 0) (Wall_write_stored _ H)).
  - exact (f_equal (write_with_type 19) (Primitive_write_stored _ H)).
  - exact (f_equal (write_with_type 22) (HitTarget_write_stored _ H)).
Qed.

(** ** C07 for arbitrary items *)
Lemma gameitem_stored_roundtrip i : GI_writable i = true -> GameItem_ok (GI_stored i) = true ->
  exists b, gameitem_write i = Ok b /\ forall c, gameitem_read c b = Ok (GI_stored i).
Proof. intros H1 H2. rewrite (gameitem_write_stored i H1). apply gameitem_roundtrip, H2. Qed.

(** ** What does not change *)
Lemma dili_stored_id o : opt_ok dili_ok o = true -> dili_stored o = o.
Proof.
  destruct o as [x|]; [|reflexivity]. cbn [opt_ok dili_stored]. intros H.
  destruct (dili_inv x H) as (q & E1 & E2 & _). rewrite E1, E2. reflexivity.
Qed.
Lemma dili_stored_ok o : dili_writable o = true -> opt_ok dili_ok (dili_stored o) = true.
Proof.
  destruct o as [x|]; [|reflexivity]. cbn [dili_writable dili_stored]. intros H.
  destruct (quantize_unsigned_8 x) as [q|f] eqn:E; [apply dili_dequantized|].
  unfold quantize_unsigned_8 in E. rewrite H in E. discriminate.
Qed.
Lemma dili_ok_writable o : opt_ok dili_ok o = true -> dili_writable o = true.
Proof.
  destruct o as [x|]; [|reflexivity]. cbn [opt_ok dili_writable]. intros H.
  destruct (dili_inv x H) as (q & E1 & _). unfold quantize_unsigned_8 in E1. destruct (f32_ge0 _); [reflexivity|discriminate].
Qed.
Lemma map_fst_combine {A B} (l : list A) (m : list B) : zlen l = zlen m -> map fst (combine l m) = l /\ map snd (combine l m) = m.
Proof.
  revert m. induction l as [|a l IH]; intros [|b m]; rewrite ?zlen_cons; intros H.
  - auto.
  - exfalso. change (zlen (@nil A)) with 0 in H. pose proof (zlen_nonneg m). lia.
  - exfalso. change (zlen (@nil B)) with 0 in H. pose proof (zlen_nonneg l). lia.
  - destruct (IH m) as [E1 E2]; [lia|]. cbn [combine map fst snd]. rewrite E1, E2. auto.
Qed.
Lemma frames_stored_id l d : anim_ok l d = true -> frames_stored l d = (l, d).
Proof.
  unfold anim_ok. destruct l as [[|a l]|], d as [d|]; try discriminate; [|reflexivity].
  intros H. apply andb_true_iff in H. destruct H as [H _]. apply Z.eqb_eq in H.
  cbn [frames_stored]. destruct (map_fst_combine _ _ H) as [E1 E2].
  destruct (combine (a :: l) d) as [|p ps] eqn:E; [discriminate E1|]. rewrite E1, E2. reflexivity.
Qed.
Lemma forallb_snd_combine {A B} (f : B -> bool) (l : list A) (m : list B) :
  forallb f m = true -> forallb f (map snd (combine l m)) = true.
Proof.
  revert m. induction l as [|a l IH]; intros [|b m]; cbn [combine map snd forallb]; try reflexivity.
  intros H. apply andb_true_iff in H. destruct H as [H1 H2]. rewrite H1. apply IH, H2.
Qed.
Lemma frames_stored_ok l d : anim_data_ok d = true -> anim_ok (fst (frames_stored l d)) (snd (frames_stored l d)) = true.
Proof.
  destruct l as [l|]; [|reflexivity]. destruct d as [d|]; [|reflexivity]. cbn [frames_stored anim_data_ok]. intros H.
  pose proof (forallb_snd_combine data_ok l d H) as H'.
  destruct (combine l d) as [|p ps]; [reflexivity|]. cbn [fst snd anim_ok].
  change (map fst (p :: ps)) with (fst p :: map fst ps). cbn [anim_ok].
  change (fst p :: map fst ps) with (map fst (p :: ps)). rewrite H', andb_true_r. apply Z.eqb_eq.
  unfold zlen. rewrite !map_length. reflexivity.
Qed.

Lemma GI_stored_id i : GameItem_ok i = true -> GI_stored i = i.
Proof.
  destruct i as [v| | | | | | | | | | | | | | |v| | |v| | |]; cbn [GI_stored GameItem_ok]; intros H;
    try match goal with |- ?a = ?b => constr_eq a b; reflexivity end.
  - unfold Wall_ok in H. split_ok H. unfold Wall_stored. rewrite dili_stored_id by asm. destruct v. reflexivity.
  - unfold Primitive_ok in H. split_ok H. unfold Primitive_stored.
    rewrite dili_stored_id by asm. rewrite frames_stored_id by asm. destruct v. reflexivity.
  - unfold HitTarget_ok in H. split_ok H. unfold HitTarget_stored. rewrite dili_stored_id by asm. destruct v. reflexivity.
Qed.
Lemma GI_ok_writable i : GameItem_ok i = true -> GI_writable i = true.
Proof.
  destruct i as [v| | | | | | | | | | | | | | |v| | |v| | |]; cbn [GI_writable GameItem_ok]; intros H; try reflexivity; try discriminate H.
  - unfold Wall_ok in H. split_ok H. apply dili_ok_writable. asm.
  - unfold Primitive_ok in H. split_ok H. apply dili_ok_writable. asm.
  - unfold HitTarget_ok in H. split_ok H. apply dili_ok_writable. asm.
Qed.
(** Items that were read are storable, up to their animation frames. *)
Lemma was_read_stored i : (forall t g, i <> GI_Generic t g) -> GameItem_was_read i ->
  GI_writable i = true /\ GameItem_ok (GI_stored i) = true.
Proof.
  intros HG HR. destruct i as [v| | | | | | | | | | | | | | |v| | |v| | |t g];
    try (cbn [GameItem_was_read] in HR; split; [exact (GI_ok_writable _ HR)|rewrite (GI_stored_id _ HR); exact HR]).
  - cbn [GameItem_was_read] in HR. cbn [GI_writable GI_stored GameItem_ok].
    assert (HA : anim_data_ok (Primitive_compressed_animation_vertices_data v) = true /\ opt_ok dili_ok (Primitive_disable_lighting_top_old v) = true).
    { unfold Primitive_ok_but_frames in HR. split_ok HR. split; asm. }
    destruct HA as [HA HD].
    split; [exact (dili_ok_writable _ HD)|].
    pose proof (frames_stored_ok (Primitive_compressed_animation_vertices_len v) _ HA) as HF.
    unfold Primitive_stored. rewrite (dili_stored_id _ HD). revert HF.
    generalize (frames_stored (Primitive_compressed_animation_vertices_len v) (Primitive_compressed_animation_vertices_data v)).
    intros [p q]. cbn [fst snd]. intros HF. clear HA HD.
    unfold Primitive_ok_but_frames in HR. split_ok HR. unfold Primitive_ok.
    destruct v. cbn in *. rewrite HF.
    repeat match goal with H : _ = true |- _ => rewrite H; clear H end. reflexivity.
  - exfalso. exact (HG t g eq_refl).
Qed.

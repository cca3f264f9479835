(** Generated by tools/gen_gameitem.py: facts about game items of any kind. *)
From Verif Require Import Base Text Biff Quantize Common Enums ItemBase.
From Verif Require Import ItemWall ItemFlipper ItemTimer ItemPlunger ItemTextBox ItemBumper ItemTrigger ItemLight ItemKicker ItemDecal ItemGate ItemSpinner ItemRamp ItemReel ItemLightSequencer ItemPrimitive ItemFlasher ItemRubber ItemHitTarget ItemBall ItemPartGroup GameItem.
From Verif Require Import BaseFacts TextFacts BiffFacts CommonFacts TermFacts QuantizeFacts EnumsFacts ItemBaseFacts.
From Verif Require Import ItemWallFacts ItemFlipperFacts ItemTimerFacts ItemPlungerFacts ItemTextBoxFacts ItemBumperFacts ItemTriggerFacts ItemLightFacts ItemKickerFacts ItemDecalFacts ItemGateFacts ItemSpinnerFacts ItemRampFacts ItemReelFacts ItemLightSequencerFacts ItemPrimitiveFacts ItemFlasherFacts ItemRubberFacts ItemHitTargetFacts ItemBallFacts ItemPartGroupFacts.
From Verif Require Import GameItemBaseFacts.

(** The number that stands in front of an item. *)
Definition GameItem_type (i : GameItem) : u32 :=
  match i with
  | GI_Wall _ => Z_to_w32 0
  | GI_Flipper _ => Z_to_w32 1
  | GI_Timer _ => Z_to_w32 2
  | GI_Plunger _ => Z_to_w32 3
  | GI_TextBox _ => Z_to_w32 4
  | GI_Bumper _ => Z_to_w32 5
  | GI_Trigger _ => Z_to_w32 6
  | GI_Light _ => Z_to_w32 7
  | GI_Kicker _ => Z_to_w32 8
  | GI_Decal _ => Z_to_w32 9
  | GI_Gate _ => Z_to_w32 10
  | GI_Spinner _ => Z_to_w32 11
  | GI_Ramp _ => Z_to_w32 12
  | GI_Reel _ => Z_to_w32 17
  | GI_LightSequencer _ => Z_to_w32 18
  | GI_Primitive _ => Z_to_w32 19
  | GI_Flasher _ => Z_to_w32 20
  | GI_Rubber _ => Z_to_w32 21
  | GI_HitTarget _ => Z_to_w32 22
  | GI_Ball _ => Z_to_w32 23
  | GI_PartGroup _ => Z_to_w32 24
  | GI_Generic t _ => t
  end.
(** Items all of whose strings, blobs and numbers the file format can hold. *)
Definition GameItem_ok (i : GameItem) : bool :=
  match i with
  | GI_Wall v => Wall_ok v
  | GI_Flipper v => Flipper_ok v
  | GI_Timer v => Timer_ok v
  | GI_Plunger v => Plunger_ok v
  | GI_TextBox v => TextBox_ok v
  | GI_Bumper v => Bumper_ok v
  | GI_Trigger v => Trigger_ok v
  | GI_Light v => Light_ok v
  | GI_Kicker v => Kicker_ok v
  | GI_Decal v => Decal_ok v
  | GI_Gate v => Gate_ok v
  | GI_Spinner v => Spinner_ok v
  | GI_Ramp v => Ramp_ok v
  | GI_Reel v => Reel_ok v
  | GI_LightSequencer v => LightSequencer_ok v
  | GI_Primitive v => Primitive_ok v
  | GI_Flasher v => Flasher_ok v
  | GI_Rubber v => Rubber_ok v
  | GI_HitTarget v => HitTarget_ok v
  | GI_Ball v => Ball_ok v
  | GI_PartGroup v => PartGroup_ok v
  | GI_Generic _ _ => false
  end.
(** The records of an item, in the order in which they are written. *)
Definition GameItem_recs (i : GameItem) : list rec :=
  match i with
  | GI_Wall v => Wall_recs v
  | GI_Flipper v => Flipper_recs v
  | GI_Timer v => Timer_recs v
  | GI_Plunger v => Plunger_recs v
  | GI_TextBox v => TextBox_recs v
  | GI_Bumper v => Bumper_recs v
  | GI_Trigger v => Trigger_recs v
  | GI_Light v => Light_recs v
  | GI_Kicker v => Kicker_recs v
  | GI_Decal v => Decal_recs v
  | GI_Gate v => Gate_recs v
  | GI_Spinner v => Spinner_recs v
  | GI_Ramp v => Ramp_recs v
  | GI_Reel v => Reel_recs v
  | GI_LightSequencer v => LightSequencer_recs v
  | GI_Primitive v => Primitive_recs v
  | GI_Flasher v => Flasher_recs v
  | GI_Rubber v => Rubber_recs v
  | GI_HitTarget v => HitTarget_recs v
  | GI_Ball v => Ball_recs v
  | GI_PartGroup v => PartGroup_recs v
  | GI_Generic _ _ => []
  end.
(** The tags that the reader of an item kind looks at. *)
Definition GameItem_tags (i : GameItem) : list string :=
  match i with
  | GI_Wall _ => map fst Wall_arms
  | GI_Flipper _ => map fst Flipper_arms
  | GI_Timer _ => map fst Timer_arms
  | GI_Plunger _ => map fst Plunger_arms
  | GI_TextBox _ => map fst TextBox_arms
  | GI_Bumper _ => map fst Bumper_arms
  | GI_Trigger _ => map fst Trigger_arms
  | GI_Light _ => map fst Light_arms
  | GI_Kicker _ => map fst Kicker_arms
  | GI_Decal _ => map fst Decal_arms
  | GI_Gate _ => map fst Gate_arms
  | GI_Spinner _ => map fst Spinner_arms
  | GI_Ramp _ => map fst Ramp_arms
  | GI_Reel _ => map fst Reel_arms
  | GI_LightSequencer _ => map fst LightSequencer_arms
  | GI_Primitive _ => map fst Primitive_arms
  | GI_Flasher _ => map fst Flasher_arms
  | GI_Rubber _ => map fst Rubber_arms
  | GI_HitTarget _ => map fst HitTarget_arms
  | GI_Ball _ => map fst Ball_arms
  | GI_PartGroup _ => map fst PartGroup_arms
  | GI_Generic _ _ => []
  end.

Lemma Wall_typed v rs : Wall_ok v = true -> Padded (map fst Wall_arms) (Wall_recs v) rs ->
  forall c, gameitem_read c (w32_bytes (Z_to_w32 0) ++ enc (rs ++ [endb])) = Ok (GI_Wall v).
Proof.
  intros H HP c. apply (typed_read_arms Wall_arms Wall_init GI_Wall (Z_to_w32 0) rs v c); [intros r; reflexivity|].
  exact (Steps_padded Wall_arms _ _ (Wall_recs v) rs ltac:(point_arms) (Wall_steps v H) HP).
Qed.
Lemma Wall_typed_write v : Wall_ok v = true ->
  gameitem_write (GI_Wall v) = Ok (w32_bytes (Z_to_w32 0) ++ enc (Wall_recs v ++ [endb])).
Proof. intros H. apply (typed_write 0 _ _ (Wall_wapp v H)). unfold Wall_write. closes. Qed.

Lemma Flipper_typed v rs : Flipper_ok v = true -> Padded (map fst Flipper_arms) (Flipper_recs v) rs ->
  forall c, gameitem_read c (w32_bytes (Z_to_w32 1) ++ enc (rs ++ [endb])) = Ok (GI_Flipper v).
Proof.
  intros H HP c. apply (typed_read_arms Flipper_arms Flipper_init GI_Flipper (Z_to_w32 1) rs v c); [intros r; reflexivity|].
  exact (Steps_padded Flipper_arms _ _ (Flipper_recs v) rs ltac:(point_arms) (Flipper_steps v H) HP).
Qed.
Lemma Flipper_typed_write v : Flipper_ok v = true ->
  gameitem_write (GI_Flipper v) = Ok (w32_bytes (Z_to_w32 1) ++ enc (Flipper_recs v ++ [endb])).
Proof. intros H. apply (typed_write 1 _ _ (Flipper_wapp v H)). unfold Flipper_write. closes. Qed.

Lemma Timer_typed v rs : Timer_ok v = true -> Padded (map fst Timer_arms) (Timer_recs v) rs ->
  forall c, gameitem_read c (w32_bytes (Z_to_w32 2) ++ enc (rs ++ [endb])) = Ok (GI_Timer v).
Proof.
  intros H HP c. apply (typed_read_arms Timer_arms Timer_init GI_Timer (Z_to_w32 2) rs v c); [intros r; reflexivity|].
  exact (Steps_padded Timer_arms _ _ (Timer_recs v) rs ltac:(point_arms) (Timer_steps v H) HP).
Qed.
Lemma Timer_typed_write v : Timer_ok v = true ->
  gameitem_write (GI_Timer v) = Ok (w32_bytes (Z_to_w32 2) ++ enc (Timer_recs v ++ [endb])).
Proof. intros H. apply (typed_write 2 _ _ (Timer_wapp v H)). unfold Timer_write. closes. Qed.

Lemma Plunger_typed v rs : Plunger_ok v = true -> Padded (map fst Plunger_arms) (Plunger_recs v) rs ->
  forall c, gameitem_read c (w32_bytes (Z_to_w32 3) ++ enc (rs ++ [endb])) = Ok (GI_Plunger v).
Proof.
  intros H HP c. apply (typed_read_arms Plunger_arms Plunger_init GI_Plunger (Z_to_w32 3) rs v c); [intros r; reflexivity|].
  exact (Steps_padded Plunger_arms _ _ (Plunger_recs v) rs ltac:(point_arms) (Plunger_steps v H) HP).
Qed.
Lemma Plunger_typed_write v : Plunger_ok v = true ->
  gameitem_write (GI_Plunger v) = Ok (w32_bytes (Z_to_w32 3) ++ enc (Plunger_recs v ++ [endb])).
Proof. intros H. apply (typed_write 3 _ _ (Plunger_wapp v H)). unfold Plunger_write. closes. Qed.

Lemma TextBox_typed v rs : TextBox_ok v = true -> Padded (map fst TextBox_arms) (TextBox_recs v) rs ->
  forall c, gameitem_read c (w32_bytes (Z_to_w32 4) ++ enc (rs ++ [endb])) = Ok (GI_TextBox v).
Proof.
  intros H HP c. apply (typed_read_arms TextBox_arms TextBox_init GI_TextBox (Z_to_w32 4) rs v c); [intros r; reflexivity|].
  exact (Steps_padded TextBox_arms _ _ (TextBox_recs v) rs ltac:(point_arms) (TextBox_steps v H) HP).
Qed.
Lemma TextBox_typed_write v : TextBox_ok v = true ->
  gameitem_write (GI_TextBox v) = Ok (w32_bytes (Z_to_w32 4) ++ enc (TextBox_recs v ++ [endb])).
Proof. intros H. apply (typed_write 4 _ _ (TextBox_wapp v H)). unfold TextBox_write. closes. Qed.

Lemma Bumper_typed v rs : Bumper_ok v = true -> Padded (map fst Bumper_arms) (Bumper_recs v) rs ->
  forall c, gameitem_read c (w32_bytes (Z_to_w32 5) ++ enc (rs ++ [endb])) = Ok (GI_Bumper v).
Proof.
  intros H HP c. apply (typed_read_arms Bumper_arms Bumper_init GI_Bumper (Z_to_w32 5) rs v c); [intros r; reflexivity|].
  exact (Steps_padded Bumper_arms _ _ (Bumper_recs v) rs ltac:(point_arms) (Bumper_steps v H) HP).
Qed.
Lemma Bumper_typed_write v : Bumper_ok v = true ->
  gameitem_write (GI_Bumper v) = Ok (w32_bytes (Z_to_w32 5) ++ enc (Bumper_recs v ++ [endb])).
Proof. intros H. apply (typed_write 5 _ _ (Bumper_wapp v H)). unfold Bumper_write. closes. Qed.

Lemma Trigger_typed v rs : Trigger_ok v = true -> Padded (map fst Trigger_arms) (Trigger_recs v) rs ->
  forall c, gameitem_read c (w32_bytes (Z_to_w32 6) ++ enc (rs ++ [endb])) = Ok (GI_Trigger v).
Proof.
  intros H HP c. apply (typed_read_arms Trigger_arms Trigger_init GI_Trigger (Z_to_w32 6) rs v c); [intros r; reflexivity|].
  exact (Steps_padded Trigger_arms _ _ (Trigger_recs v) rs ltac:(point_arms) (Trigger_steps v H) HP).
Qed.
Lemma Trigger_typed_write v : Trigger_ok v = true ->
  gameitem_write (GI_Trigger v) = Ok (w32_bytes (Z_to_w32 6) ++ enc (Trigger_recs v ++ [endb])).
Proof. intros H. apply (typed_write 6 _ _ (Trigger_wapp v H)). unfold Trigger_write. closes. Qed.

Lemma Light_typed v rs : Light_ok v = true -> Padded (map fst Light_arms) (Light_recs v) rs ->
  forall c, gameitem_read c (w32_bytes (Z_to_w32 7) ++ enc (rs ++ [endb])) = Ok (GI_Light v).
Proof.
  intros H HP c. apply (typed_read_arms Light_arms Light_init GI_Light (Z_to_w32 7) rs v c); [intros r; reflexivity|].
  exact (Steps_padded Light_arms _ _ (Light_recs v) rs ltac:(point_arms) (Light_steps v H) HP).
Qed.
Lemma Light_typed_write v : Light_ok v = true ->
  gameitem_write (GI_Light v) = Ok (w32_bytes (Z_to_w32 7) ++ enc (Light_recs v ++ [endb])).
Proof. intros H. apply (typed_write 7 _ _ (Light_wapp v H)). unfold Light_write. closes. Qed.

Lemma Kicker_typed v rs : Kicker_ok v = true -> Padded (map fst Kicker_arms) (Kicker_recs v) rs ->
  forall c, gameitem_read c (w32_bytes (Z_to_w32 8) ++ enc (rs ++ [endb])) = Ok (GI_Kicker v).
Proof.
  intros H HP c. apply (typed_read_arms Kicker_arms Kicker_init GI_Kicker (Z_to_w32 8) rs v c); [intros r; reflexivity|].
  exact (Steps_padded Kicker_arms _ _ (Kicker_recs v) rs ltac:(point_arms) (Kicker_steps v H) HP).
Qed.
Lemma Kicker_typed_write v : Kicker_ok v = true ->
  gameitem_write (GI_Kicker v) = Ok (w32_bytes (Z_to_w32 8) ++ enc (Kicker_recs v ++ [endb])).
Proof. intros H. apply (typed_write 8 _ _ (Kicker_wapp v H)). unfold Kicker_write. closes. Qed.

Lemma Decal_typed v rs : Decal_ok v = true -> Padded (map fst Decal_arms) (Decal_recs v) rs ->
  forall c, gameitem_read c (w32_bytes (Z_to_w32 9) ++ enc (rs ++ [endb])) = Ok (GI_Decal v).
Proof.
  intros H HP c. apply (typed_read_arms Decal_arms Decal_init GI_Decal (Z_to_w32 9) rs v c); [intros r; reflexivity|].
  exact (Steps_padded Decal_arms _ _ (Decal_recs v) rs ltac:(point_arms) (Decal_steps v H) HP).
Qed.
Lemma Decal_typed_write v : Decal_ok v = true ->
  gameitem_write (GI_Decal v) = Ok (w32_bytes (Z_to_w32 9) ++ enc (Decal_recs v ++ [endb])).
Proof. intros H. apply (typed_write 9 _ _ (Decal_wapp v H)). unfold Decal_write. closes. Qed.

Lemma Gate_typed v rs : Gate_ok v = true -> Padded (map fst Gate_arms) (Gate_recs v) rs ->
  forall c, gameitem_read c (w32_bytes (Z_to_w32 10) ++ enc (rs ++ [endb])) = Ok (GI_Gate v).
Proof.
  intros H HP c. apply (typed_read_arms Gate_arms Gate_init GI_Gate (Z_to_w32 10) rs v c); [intros r; reflexivity|].
  exact (Steps_padded Gate_arms _ _ (Gate_recs v) rs ltac:(point_arms) (Gate_steps v H) HP).
Qed.
Lemma Gate_typed_write v : Gate_ok v = true ->
  gameitem_write (GI_Gate v) = Ok (w32_bytes (Z_to_w32 10) ++ enc (Gate_recs v ++ [endb])).
Proof. intros H. apply (typed_write 10 _ _ (Gate_wapp v H)). unfold Gate_write. closes. Qed.

Lemma Spinner_typed v rs : Spinner_ok v = true -> Padded (map fst Spinner_arms) (Spinner_recs v) rs ->
  forall c, gameitem_read c (w32_bytes (Z_to_w32 11) ++ enc (rs ++ [endb])) = Ok (GI_Spinner v).
Proof.
  intros H HP c. apply (typed_read_arms Spinner_arms Spinner_init GI_Spinner (Z_to_w32 11) rs v c); [intros r; reflexivity|].
  exact (Steps_padded Spinner_arms _ _ (Spinner_recs v) rs ltac:(point_arms) (Spinner_steps v H) HP).
Qed.
Lemma Spinner_typed_write v : Spinner_ok v = true ->
  gameitem_write (GI_Spinner v) = Ok (w32_bytes (Z_to_w32 11) ++ enc (Spinner_recs v ++ [endb])).
Proof. intros H. apply (typed_write 11 _ _ (Spinner_wapp v H)). unfold Spinner_write. closes. Qed.

Lemma Ramp_typed v rs : Ramp_ok v = true -> Padded (map fst Ramp_arms) (Ramp_recs v) rs ->
  forall c, gameitem_read c (w32_bytes (Z_to_w32 12) ++ enc (rs ++ [endb])) = Ok (GI_Ramp v).
Proof.
  intros H HP c. apply (typed_read_arms Ramp_arms Ramp_init GI_Ramp (Z_to_w32 12) rs v c); [intros r; reflexivity|].
  exact (Steps_padded Ramp_arms _ _ (Ramp_recs v) rs ltac:(point_arms) (Ramp_steps v H) HP).
Qed.
Lemma Ramp_typed_write v : Ramp_ok v = true ->
  gameitem_write (GI_Ramp v) = Ok (w32_bytes (Z_to_w32 12) ++ enc (Ramp_recs v ++ [endb])).
Proof. intros H. apply (typed_write 12 _ _ (Ramp_wapp v H)). unfold Ramp_write. closes. Qed.

Lemma Reel_typed v rs : Reel_ok v = true -> Padded (map fst Reel_arms) (Reel_recs v) rs ->
  forall c, gameitem_read c (w32_bytes (Z_to_w32 17) ++ enc (rs ++ [endb])) = Ok (GI_Reel v).
Proof.
  intros H HP c. apply (typed_read_arms Reel_arms Reel_init GI_Reel (Z_to_w32 17) rs v c); [intros r; reflexivity|].
  exact (Steps_padded Reel_arms _ _ (Reel_recs v) rs ltac:(point_arms) (Reel_steps v H) HP).
Qed.
Lemma Reel_typed_write v : Reel_ok v = true ->
  gameitem_write (GI_Reel v) = Ok (w32_bytes (Z_to_w32 17) ++ enc (Reel_recs v ++ [endb])).
Proof. intros H. apply (typed_write 17 _ _ (Reel_wapp v H)). unfold Reel_write. closes. Qed.

Lemma LightSequencer_typed v rs : LightSequencer_ok v = true -> Padded (map fst LightSequencer_arms) (LightSequencer_recs v) rs ->
  forall c, gameitem_read c (w32_bytes (Z_to_w32 18) ++ enc (rs ++ [endb])) = Ok (GI_LightSequencer v).
Proof.
  intros H HP c. apply (typed_read_arms LightSequencer_arms LightSequencer_init GI_LightSequencer (Z_to_w32 18) rs v c); [intros r; reflexivity|].
  exact (Steps_padded LightSequencer_arms _ _ (LightSequencer_recs v) rs ltac:(point_arms) (LightSequencer_steps v H) HP).
Qed.
Lemma LightSequencer_typed_write v : LightSequencer_ok v = true ->
  gameitem_write (GI_LightSequencer v) = Ok (w32_bytes (Z_to_w32 18) ++ enc (LightSequencer_recs v ++ [endb])).
Proof. intros H. apply (typed_write 18 _ _ (LightSequencer_wapp v H)). unfold LightSequencer_write. closes. Qed.

Lemma Primitive_typed v rs : Primitive_ok v = true -> Padded (map fst Primitive_arms) (Primitive_recs v) rs ->
  forall c, gameitem_read c (w32_bytes (Z_to_w32 19) ++ enc (rs ++ [endb])) = Ok (GI_Primitive v).
Proof.
  intros H HP c. apply (typed_read_arms Primitive_arms Primitive_init GI_Primitive (Z_to_w32 19) rs v c); [intros r; reflexivity|].
  exact (Steps_padded Primitive_arms _ _ (Primitive_recs v) rs ltac:(point_arms) (Primitive_steps v H) HP).
Qed.
Lemma Primitive_typed_write v : Primitive_ok v = true ->
  gameitem_write (GI_Primitive v) = Ok (w32_bytes (Z_to_w32 19) ++ enc (Primitive_recs v ++ [endb])).
Proof. intros H. apply (typed_write 19 _ _ (Primitive_wapp v H)). unfold Primitive_write. closes. Qed.

Lemma Flasher_typed v rs : Flasher_ok v = true -> Padded (map fst Flasher_arms) (Flasher_recs v) rs ->
  forall c, gameitem_read c (w32_bytes (Z_to_w32 20) ++ enc (rs ++ [endb])) = Ok (GI_Flasher v).
Proof.
  intros H HP c. apply (typed_read_arms Flasher_arms Flasher_init GI_Flasher (Z_to_w32 20) rs v c); [intros r; reflexivity|].
  exact (Steps_padded Flasher_arms _ _ (Flasher_recs v) rs ltac:(point_arms) (Flasher_steps v H) HP).
Qed.
Lemma Flasher_typed_write v : Flasher_ok v = true ->
  gameitem_write (GI_Flasher v) = Ok (w32_bytes (Z_to_w32 20) ++ enc (Flasher_recs v ++ [endb])).
Proof. intros H. apply (typed_write 20 _ _ (Flasher_wapp v H)). unfold Flasher_write. closes. Qed.

Lemma Rubber_typed v rs : Rubber_ok v = true -> Padded (map fst Rubber_arms) (Rubber_recs v) rs ->
  forall c, gameitem_read c (w32_bytes (Z_to_w32 21) ++ enc (rs ++ [endb])) = Ok (GI_Rubber v).
Proof.
  intros H HP c. apply (typed_read_arms Rubber_arms Rubber_init GI_Rubber (Z_to_w32 21) rs v c); [intros r; reflexivity|].
  exact (Steps_padded Rubber_arms _ _ (Rubber_recs v) rs ltac:(point_arms) (Rubber_steps v H) HP).
Qed.
Lemma Rubber_typed_write v : Rubber_ok v = true ->
  gameitem_write (GI_Rubber v) = Ok (w32_bytes (Z_to_w32 21) ++ enc (Rubber_recs v ++ [endb])).
Proof. intros H. apply (typed_write 21 _ _ (Rubber_wapp v H)). unfold Rubber_write. closes. Qed.

Lemma HitTarget_typed v rs : HitTarget_ok v = true -> Padded (map fst HitTarget_arms) (HitTarget_recs v) rs ->
  forall c, gameitem_read c (w32_bytes (Z_to_w32 22) ++ enc (rs ++ [endb])) = Ok (GI_HitTarget v).
Proof.
  intros H HP c. apply (typed_read_arms HitTarget_arms HitTarget_init GI_HitTarget (Z_to_w32 22) rs v c); [intros r; reflexivity|].
  exact (Steps_padded HitTarget_arms _ _ (HitTarget_recs v) rs ltac:(point_arms) (HitTarget_steps v H) HP).
Qed.
Lemma HitTarget_typed_write v : HitTarget_ok v = true ->
  gameitem_write (GI_HitTarget v) = Ok (w32_bytes (Z_to_w32 22) ++ enc (HitTarget_recs v ++ [endb])).
Proof. intros H. apply (typed_write 22 _ _ (HitTarget_wapp v H)). unfold HitTarget_write. closes. Qed.

Lemma Ball_typed v rs : Ball_ok v = true -> Padded (map fst Ball_arms) (Ball_recs v) rs ->
  forall c, gameitem_read c (w32_bytes (Z_to_w32 23) ++ enc (rs ++ [endb])) = Ok (GI_Ball v).
Proof.
  intros H HP c. apply (typed_read_arms Ball_arms Ball_init GI_Ball (Z_to_w32 23) rs v c); [intros r; reflexivity|].
  exact (Steps_padded Ball_arms _ _ (Ball_recs v) rs ltac:(point_arms) (Ball_steps v H) HP).
Qed.
Lemma Ball_typed_write v : Ball_ok v = true ->
  gameitem_write (GI_Ball v) = Ok (w32_bytes (Z_to_w32 23) ++ enc (Ball_recs v ++ [endb])).
Proof. intros H. apply (typed_write 23 _ _ (Ball_wapp v H)). unfold Ball_write. closes. Qed.

Lemma PartGroup_typed v rs : PartGroup_ok v = true -> Padded (map fst PartGroup_arms) (PartGroup_recs v) rs ->
  forall c, gameitem_read c (w32_bytes (Z_to_w32 24) ++ enc (rs ++ [endb])) = Ok (GI_PartGroup v).
Proof.
  intros H HP c. apply (typed_read_arms PartGroup_arms PartGroup_init GI_PartGroup (Z_to_w32 24) rs v c); [intros r; reflexivity|].
  exact (Steps_padded PartGroup_arms _ _ (PartGroup_recs v) rs ltac:(point_arms) (PartGroup_steps v H) HP).
Qed.
Lemma PartGroup_typed_write v : PartGroup_ok v = true ->
  gameitem_write (GI_PartGroup v) = Ok (w32_bytes (Z_to_w32 24) ++ enc (PartGroup_recs v ++ [endb])).
Proof. intros H. apply (typed_write 24 _ _ (PartGroup_wapp v H)). unfold PartGroup_write. closes. Qed.

Lemma gameitem_write_ok i : GameItem_ok i = true ->
  gameitem_write i = Ok (w32_bytes (GameItem_type i) ++ enc (GameItem_recs i ++ [endb])).
Proof.
  destruct i; cbn [GameItem_ok GameItem_type GameItem_recs]; intros H.
  - exact (Wall_typed_write v H).
  - exact (Flipper_typed_write v H).
  - exact (Timer_typed_write v H).
  - exact (Plunger_typed_write v H).
  - exact (TextBox_typed_write v H).
  - exact (Bumper_typed_write v H).
  - exact (Trigger_typed_write v H).
  - exact (Light_typed_write v H).
  - exact (Kicker_typed_write v H).
  - exact (Decal_typed_write v H).
  - exact (Gate_typed_write v H).
  - exact (Spinner_typed_write v H).
  - exact (Ramp_typed_write v H).
  - exact (Reel_typed_write v H).
  - exact (LightSequencer_typed_write v H).
  - exact (Primitive_typed_write v H).
  - exact (Flasher_typed_write v H).
  - exact (Rubber_typed_write v H).
  - exact (HitTarget_typed_write v H).
  - exact (Ball_typed_write v H).
  - exact (PartGroup_typed_write v H).
  - discriminate H.
Qed.
Lemma gameitem_read_padded i rs : GameItem_ok i = true -> Padded (GameItem_tags i) (GameItem_recs i) rs ->
  forall c, gameitem_read c (w32_bytes (GameItem_type i) ++ enc (rs ++ [endb])) = Ok i.
Proof.
  destruct i; cbn [GameItem_ok GameItem_type GameItem_recs GameItem_tags]; intros H HP c.
  - exact (Wall_typed v rs H HP c).
  - exact (Flipper_typed v rs H HP c).
  - exact (Timer_typed v rs H HP c).
  - exact (Plunger_typed v rs H HP c).
  - exact (TextBox_typed v rs H HP c).
  - exact (Bumper_typed v rs H HP c).
  - exact (Trigger_typed v rs H HP c).
  - exact (Light_typed v rs H HP c).
  - exact (Kicker_typed v rs H HP c).
  - exact (Decal_typed v rs H HP c).
  - exact (Gate_typed v rs H HP c).
  - exact (Spinner_typed v rs H HP c).
  - exact (Ramp_typed v rs H HP c).
  - exact (Reel_typed v rs H HP c).
  - exact (LightSequencer_typed v rs H HP c).
  - exact (Primitive_typed v rs H HP c).
  - exact (Flasher_typed v rs H HP c).
  - exact (Rubber_typed v rs H HP c).
  - exact (HitTarget_typed v rs H HP c).
  - exact (Ball_typed v rs H HP c).
  - exact (PartGroup_typed v rs H HP c).
  - discriminate H.
Qed.
Lemma gameitem_roundtrip i : GameItem_ok i = true ->
  exists b, gameitem_write i = Ok b /\ forall c, gameitem_read c b = Ok i.
Proof.
  intros H. exists (w32_bytes (GameItem_type i) ++ enc (GameItem_recs i ++ [endb])).
  split; [apply gameitem_write_ok, H|]. intros c. apply gameitem_read_padded; [exact H|apply Padded_refl].
Qed.

Lemma GameItem_term : Term GameItem_read.
Proof.
  apply Term_bind; [apply Term_get_u32_nru|]. intros t. cbv zeta.
  repeat match goal with |- Term (if ?c then _ else _) => destruct c end;
  try apply Term_panic; (apply Term_bind; [|intros; apply Term_ret]).
  - exact Wall_term.
  - exact Flipper_term.
  - exact Timer_term.
  - exact Plunger_term.
  - exact TextBox_term.
  - exact Bumper_term.
  - exact Trigger_term.
  - exact Light_term.
  - exact Kicker_term.
  - exact Decal_term.
  - exact Gate_term.
  - exact Spinner_term.
  - exact Ramp_term.
  - exact Reel_term.
  - exact LightSequencer_term.
  - exact Primitive_term.
  - exact Flasher_term.
  - exact Rubber_term.
  - exact HitTarget_term.
  - exact Ball_term.
  - exact PartGroup_term.
  - exact Generic_term.
Qed.

(** What is known about any item that was read. *)
Definition GameItem_was_read (i : GameItem) : Prop :=
  match i with
  | GI_Primitive v => Primitive_ok_but_frames v = true
  | GI_Generic t g => ~ In (w32_to_Z t) [0; 1; 2; 3; 4; 5; 6; 7; 8; 9; 10; 11; 12; 13; 14; 15; 16; 17; 18; 19; 20; 21; 22; 23; 24]
  | i => GameItem_ok i = true
  end.
Lemma GameItem_yields : Yields GameItem_read GameItem_was_read.
Proof.
  eapply Yields_bind; [apply Yields_any, Keeps_u32_nru|]. intros t _. cbv zeta.
  repeat match goal with |- Yields (if ?c then _ else _) _ => destruct c eqn:? end;
  try (intros r x r' _ E; discriminate E).
  - eapply Yields_bind; [exact Wall_yields|]. intros v Hv. apply Yields_ret. exact Hv.
  - eapply Yields_bind; [exact Flipper_yields|]. intros v Hv. apply Yields_ret. exact Hv.
  - eapply Yields_bind; [exact Timer_yields|]. intros v Hv. apply Yields_ret. exact Hv.
  - eapply Yields_bind; [exact Plunger_yields|]. intros v Hv. apply Yields_ret. exact Hv.
  - eapply Yields_bind; [exact TextBox_yields|]. intros v Hv. apply Yields_ret. exact Hv.
  - eapply Yields_bind; [exact Bumper_yields|]. intros v Hv. apply Yields_ret. exact Hv.
  - eapply Yields_bind; [exact Trigger_yields|]. intros v Hv. apply Yields_ret. exact Hv.
  - eapply Yields_bind; [exact Light_yields|]. intros v Hv. apply Yields_ret. exact Hv.
  - eapply Yields_bind; [exact Kicker_yields|]. intros v Hv. apply Yields_ret. exact Hv.
  - eapply Yields_bind; [exact Decal_yields|]. intros v Hv. apply Yields_ret. exact Hv.
  - eapply Yields_bind; [exact Gate_yields|]. intros v Hv. apply Yields_ret. exact Hv.
  - eapply Yields_bind; [exact Spinner_yields|]. intros v Hv. apply Yields_ret. exact Hv.
  - eapply Yields_bind; [exact Ramp_yields|]. intros v Hv. apply Yields_ret. exact Hv.
  - eapply Yields_bind; [exact Reel_yields|]. intros v Hv. apply Yields_ret. exact Hv.
  - eapply Yields_bind; [exact LightSequencer_yields|]. intros v Hv. apply Yields_ret. exact Hv.
  - eapply Yields_bind; [exact Primitive_yields|]. intros v Hv. apply Yields_ret. exact Hv.
  - eapply Yields_bind; [exact Flasher_yields|]. intros v Hv. apply Yields_ret. exact Hv.
  - eapply Yields_bind; [exact Rubber_yields|]. intros v Hv. apply Yields_ret. exact Hv.
  - eapply Yields_bind; [exact HitTarget_yields|]. intros v Hv. apply Yields_ret. exact Hv.
  - eapply Yields_bind; [exact Ball_yields|]. intros v Hv. apply Yields_ret. exact Hv.
  - eapply Yields_bind; [exact PartGroup_yields|]. intros v Hv. apply Yields_ret. exact Hv.
  - eapply Yields_bind; [exact Generic_yields|]. intros v _. apply Yields_ret. cbn [GameItem_was_read In].
    repeat match goal with H : (_ =? _) = false |- _ => apply Z.eqb_neq in H end. intuition congruence.
Qed.

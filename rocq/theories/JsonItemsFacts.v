(** Generated by tools/gen_json.py. *)
From Verif Require Import BaseFacts Base Biff Common Enums ItemBall ItemBumper ItemDecal ItemFlasher ItemFlipper ItemGate ItemHitTarget ItemKicker ItemLight ItemLightSequencer ItemPartGroup ItemPlunger ItemPrimitive ItemRamp ItemReel ItemRubber ItemSpinner ItemTextBox ItemTimer ItemTrigger ItemWall GameItem EnumsFacts JsonFloat SpecJson Json SpecJsonRecords JsonFacts JsonItems SpecJsonItems.

Section Facts.
Context {L : json_lib} (lib : lib_ok L).
Lemma restores_DecalType e : restores jc_DecalType e.
Proof. apply restores_enum; [apply DecalType_json | destruct e; reflexivity]. Qed.
Lemma restores_SizingType e : restores jc_SizingType e.
Proof. apply restores_enum; [apply SizingType_json | destruct e; reflexivity]. Qed.
Lemma restores_Filter e : restores jc_Filter e.
Proof. apply restores_enum; [apply Filter_json | destruct e; reflexivity]. Qed.
Lemma restores_RenderMode e : restores jc_RenderMode e.
Proof. apply restores_enum; [apply RenderMode_json | destruct e; reflexivity]. Qed.
Lemma restores_GateType e : GateType_ok e = true -> restores jc_GateType e.
Proof.
  intros H. apply restores_enum; [exact (GateType_json e H)|]. destruct e; try reflexivity. cbn [GateType_to_json plain_scalar].
  pose proof (w32_to_Z_range n). apply andb_true_intro. lia.
Qed.
Lemma restores_TargetType e : restores jc_TargetType e.
Proof. apply restores_enum; [apply TargetType_json | destruct e; reflexivity]. Qed.
Lemma restores_KickerType e : restores jc_KickerType e.
Proof. apply restores_enum; [apply KickerType_json | destruct e; reflexivity]. Qed.
Lemma restores_ShadowMode e : restores jc_ShadowMode e.
Proof. apply restores_enum; [apply ShadowMode_json | destruct e; reflexivity]. Qed.
Lemma restores_Fader e : restores jc_Fader e.
Proof. apply restores_enum; [apply Fader_json | destruct e; reflexivity]. Qed.
Lemma restores_SpaceReference e : restores jc_SpaceReference e.
Proof. apply restores_enum; [apply SpaceReference_json | destruct e; reflexivity]. Qed.
Lemma restores_PlungerType e : restores jc_PlungerType e.
Proof. apply restores_enum; [apply PlungerType_json | destruct e; reflexivity]. Qed.
Lemma restores_RampType e : restores jc_RampType e.
Proof. apply restores_enum; [apply RampType_json | destruct e; reflexivity]. Qed.
Lemma restores_RampImageAlignment e : restores jc_RampImageAlignment e.
Proof. apply restores_enum; [apply RampImageAlignment_json | destruct e; reflexivity]. Qed.
Lemma restores_TextAlignment e : restores jc_TextAlignment e.
Proof. apply restores_enum; [apply TextAlignment_json | destruct e; reflexivity]. Qed.
Lemma restores_TriggerShape e : restores jc_TriggerShape e.
Proof. apply restores_enum; [apply TriggerShape_json | destruct e; reflexivity]. Qed.
Lemma restores_MaterialType e : restores jc_MaterialType e.
Proof. apply restores_enum; [apply MaterialType_json | destruct e; reflexivity]. Qed.
Lemma restores_RenderProbeType e : restores jc_RenderProbeType e.
Proof. apply restores_enum; [apply RenderProbeType_json | destruct e; reflexivity]. Qed.
Lemma restores_ReflectionMode e : restores jc_ReflectionMode e.
Proof. apply restores_enum; [apply ReflectionMode_json | destruct e; reflexivity]. Qed.
Lemma restores_ViewLayoutMode e : restores jc_ViewLayoutMode e.
Proof. apply restores_enum; [apply ViewLayoutMode_json | destruct e; reflexivity]. Qed.
Lemma restores_ToneMapper e : ToneMapper_ok e = true -> restores jc_ToneMapper e.
Proof.
  intros H. apply restores_enum; [exact (ToneMapper_json e H)|]. destruct e; try reflexivity. cbn [ToneMapper_to_json plain_scalar].
  pose proof (w32_to_Z_range n). apply andb_true_intro. lia.
Qed.
Lemma restores_OutputTarget e : restores jc_OutputTarget e.
Proof. apply restores_enum; [apply OutputTarget_json | destruct e; reflexivity]. Qed.
End Facts.

Ltac item_more lib := fun _ =>
  lazymatch goal with
  | |- restores jc_Vertex2D _ => apply (restores_Vertex2D lib); assumption
  | |- restores jc_Vertex3D _ => apply (restores_Vertex3D lib); assumption
  | |- restores jc_Vertex4D _ => apply (restores_Vertex4D lib); assumption
  | |- restores jc_DragPoint _ => apply (restores_DragPoint lib); assumption
  | |- restores jc_FontDesc _ => apply (restores_FontDesc lib)
  | |- restores (jc_array _ jc_f32) _ => apply restores_array; [reflexivity | repeat constructor; apply (restores_f32 lib); assumption]
  | |- restores jc_DecalType _ => apply restores_DecalType
  | |- restores jc_SizingType _ => apply restores_SizingType
  | |- restores jc_Filter _ => apply restores_Filter
  | |- restores jc_RenderMode _ => apply restores_RenderMode
  | |- restores jc_GateType _ => apply restores_GateType; assumption
  | |- restores jc_TargetType _ => apply restores_TargetType
  | |- restores jc_KickerType _ => apply restores_KickerType
  | |- restores jc_ShadowMode _ => apply restores_ShadowMode
  | |- restores jc_Fader _ => apply restores_Fader
  | |- restores jc_SpaceReference _ => apply restores_SpaceReference
  | |- restores jc_PlungerType _ => apply restores_PlungerType
  | |- restores jc_RampType _ => apply restores_RampType
  | |- restores jc_RampImageAlignment _ => apply restores_RampImageAlignment
  | |- restores jc_TextAlignment _ => apply restores_TextAlignment
  | |- restores jc_TriggerShape _ => apply restores_TriggerShape
  | |- restores jc_MaterialType _ => apply restores_MaterialType
  | |- restores jc_RenderProbeType _ => apply restores_RenderProbeType
  | |- restores jc_ReflectionMode _ => apply restores_ReflectionMode
  | |- restores jc_ViewLayoutMode _ => apply restores_ViewLayoutMode
  | |- restores jc_ToneMapper _ => apply restores_ToneMapper; assumption
  | |- restores jc_OutputTarget _ => apply restores_OutputTarget
  end.
Ltac item lib P := let H := fresh in intros H; unfold P in H; repeat match goal with K : _ /\ _ |- _ => destruct K end; record lib ltac:(item_more lib).

Section Items.
Context {L : json_lib} (lib : lib_ok L).
Lemma json_Ball x : Ball_finite x -> jc_of jc_Ball (jc_to jc_Ball x) = Ok (Ball_json_part x).
Proof. item lib Ball_finite. destruct x; reflexivity. Qed.
Lemma json_Bumper x : Bumper_finite x -> jc_of jc_Bumper (jc_to jc_Bumper x) = Ok (Bumper_json_part x).
Proof. item lib Bumper_finite. destruct x; reflexivity. Qed.
Lemma json_Decal x : Decal_finite x -> jc_of jc_Decal (jc_to jc_Decal x) = Ok (Decal_json_part x).
Proof. item lib Decal_finite. destruct x; reflexivity. Qed.
Lemma json_Flasher x : Flasher_finite x -> jc_of jc_Flasher (jc_to jc_Flasher x) = Ok (Flasher_json_part x).
Proof. item lib Flasher_finite. destruct x; reflexivity. Qed.
Lemma json_Flipper x : Flipper_finite x -> jc_of jc_Flipper (jc_to jc_Flipper x) = Ok (Flipper_json_part x).
Proof. item lib Flipper_finite. destruct x; reflexivity. Qed.
Lemma json_Gate x : Gate_finite x -> jc_of jc_Gate (jc_to jc_Gate x) = Ok (Gate_json_part x).
Proof. item lib Gate_finite. destruct x; reflexivity. Qed.
Lemma json_HitTarget x : HitTarget_finite x -> jc_of jc_HitTarget (jc_to jc_HitTarget x) = Ok (HitTarget_json_part x).
Proof. item lib HitTarget_finite. destruct x; reflexivity. Qed.
Lemma json_Kicker x : Kicker_finite x -> jc_of jc_Kicker (jc_to jc_Kicker x) = Ok (Kicker_json_part x).
Proof. item lib Kicker_finite. destruct x; reflexivity. Qed.
Lemma json_Light x : Light_finite x -> jc_of jc_Light (jc_to jc_Light x) = Ok (Light_json_part x).
Proof. item lib Light_finite. destruct x; reflexivity. Qed.
Lemma json_LightSequencer x : LightSequencer_finite x -> jc_of jc_LightSequencer (jc_to jc_LightSequencer x) = Ok (LightSequencer_json_part x).
Proof. item lib LightSequencer_finite. destruct x; reflexivity. Qed.
Lemma json_PartGroup x : PartGroup_finite x -> jc_of jc_PartGroup (jc_to jc_PartGroup x) = Ok (PartGroup_json_part x).
Proof. item lib PartGroup_finite. destruct x; reflexivity. Qed.
Lemma json_Plunger x : Plunger_finite x -> jc_of jc_Plunger (jc_to jc_Plunger x) = Ok (Plunger_json_part x).
Proof. item lib Plunger_finite. destruct x; reflexivity. Qed.
Lemma json_Primitive x : Primitive_finite x -> jc_of jc_Primitive (jc_to jc_Primitive x) = Ok (Primitive_json_part x).
Proof. item lib Primitive_finite. destruct x; reflexivity. Qed.
Lemma json_Ramp x : Ramp_finite x -> jc_of jc_Ramp (jc_to jc_Ramp x) = Ok (Ramp_json_part x).
Proof. item lib Ramp_finite. destruct x; reflexivity. Qed.
Lemma json_Reel x : Reel_finite x -> jc_of jc_Reel (jc_to jc_Reel x) = Ok (Reel_json_part x).
Proof. item lib Reel_finite. destruct x; reflexivity. Qed.
Lemma json_Rubber x : Rubber_finite x -> jc_of jc_Rubber (jc_to jc_Rubber x) = Ok (Rubber_json_part x).
Proof. item lib Rubber_finite. destruct x; reflexivity. Qed.
Lemma json_Spinner x : Spinner_finite x -> jc_of jc_Spinner (jc_to jc_Spinner x) = Ok (Spinner_json_part x).
Proof. item lib Spinner_finite. destruct x; reflexivity. Qed.
Lemma json_TextBox x : TextBox_finite x -> jc_of jc_TextBox (jc_to jc_TextBox x) = Ok (TextBox_json_part x).
Proof. item lib TextBox_finite. destruct x; reflexivity. Qed.
Lemma json_Timer x : Timer_finite x -> jc_of jc_Timer (jc_to jc_Timer x) = Ok (Timer_json_part x).
Proof. item lib Timer_finite. destruct x; reflexivity. Qed.
Lemma json_Trigger x : Trigger_finite x -> jc_of jc_Trigger (jc_to jc_Trigger x) = Ok (Trigger_json_part x).
Proof. item lib Trigger_finite. destruct x; reflexivity. Qed.
Lemma json_Wall x : Wall_finite x -> jc_of jc_Wall (jc_to jc_Wall x) = Ok (Wall_json_part x).
Proof. item lib Wall_finite. destruct x; reflexivity. Qed.
(** Only the known keys count, and their order does not. *)
Lemma loose_Ball : loose item_keys jc_Ball. Proof. loose. Qed.
Lemma loose_Bumper : loose item_keys jc_Bumper. Proof. loose. Qed.
Lemma loose_Decal : loose item_keys jc_Decal. Proof. loose. Qed.
Lemma loose_Flasher : loose item_keys jc_Flasher. Proof. loose. Qed.
Lemma loose_Flipper : loose item_keys jc_Flipper. Proof. loose. Qed.
Lemma loose_Gate : loose item_keys jc_Gate. Proof. loose. Qed.
Lemma loose_HitTarget : loose item_keys jc_HitTarget. Proof. loose. Qed.
Lemma loose_Kicker : loose item_keys jc_Kicker. Proof. loose. Qed.
Lemma loose_Light : loose item_keys jc_Light. Proof. loose. Qed.
Lemma loose_LightSequencer : loose item_keys jc_LightSequencer. Proof. loose. Qed.
Lemma loose_PartGroup : loose item_keys jc_PartGroup. Proof. loose. Qed.
Lemma loose_Plunger : loose item_keys jc_Plunger. Proof. loose. Qed.
Lemma loose_Primitive : loose item_keys jc_Primitive. Proof. loose. Qed.
Lemma loose_Ramp : loose item_keys jc_Ramp. Proof. loose. Qed.
Lemma loose_Reel : loose item_keys jc_Reel. Proof. loose. Qed.
Lemma loose_Rubber : loose item_keys jc_Rubber. Proof. loose. Qed.
Lemma loose_Spinner : loose item_keys jc_Spinner. Proof. loose. Qed.
Lemma loose_TextBox : loose item_keys jc_TextBox. Proof. loose. Qed.
Lemma loose_Timer : loose item_keys jc_Timer. Proof. loose. Qed.
Lemma loose_Trigger : loose item_keys jc_Trigger. Proof. loose. Qed.
Lemma loose_Wall : loose item_keys jc_Wall. Proof. loose. Qed.
End Items.

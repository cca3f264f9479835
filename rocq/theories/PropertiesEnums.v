(** C41: enumerations stored as integers and in JSON.  Generated by tools/gen_enums.py. *)
From Verif Require Import Base Enums BaseFacts EnumsFacts.

(** Every value of every enumeration without an "unknown" payload reads back from the integer it is written as. *)
Theorem C41_values_read_back :
  (forall e : DecalType, DecalType_of_u32 (DecalType_to_u32 e) = Ok e)
  /\ (forall e : SizingType, SizingType_of_u32 (SizingType_to_u32 e) = Ok e)
  /\ (forall e : Filter, Filter_of_u32 (Filter_to_u32 e) = Ok e)
  /\ (forall e : RenderMode, RenderMode_of_u32 (RenderMode_to_u32 e) = Ok e)
  /\ (forall e : DmdStyle, DmdStyle_of_u32 (DmdStyle_to_u32 e) = Ok e)
  /\ (forall e : DisplayStyle, DisplayStyle_of_u32 (DisplayStyle_to_u32 e) = Ok e)
  /\ (forall e : SegStyle, SegStyle_of_u32 (SegStyle_to_u32 e) = Ok e)
  /\ (forall e : SegFamily, SegFamily_of_u32 (SegFamily_to_u32 e) = Ok e)
  /\ (forall e : TargetType, TargetType_of_u32 (TargetType_to_u32 e) = Ok e)
  /\ (forall e : KickerType, KickerType_of_u32 (KickerType_to_u32 e) = Ok e)
  /\ (forall e : ShadowMode, ShadowMode_of_u32 (ShadowMode_to_u32 e) = Ok e)
  /\ (forall e : Fader, Fader_of_u32 (Fader_to_u32 e) = Ok e)
  /\ (forall e : VisibilityMask, VisibilityMask_of_u32 (VisibilityMask_to_u32 e) = Ok e)
  /\ (forall e : SpaceReference, SpaceReference_of_u32 (SpaceReference_to_u32 e) = Ok e)
  /\ (forall e : PlungerType, PlungerType_of_u32 (PlungerType_to_u32 e) = Ok e)
  /\ (forall e : RampType, RampType_of_u32 (RampType_to_u32 e) = Ok e)
  /\ (forall e : RampImageAlignment, RampImageAlignment_of_u32 (RampImageAlignment_to_u32 e) = Ok e)
  /\ (forall e : TextAlignment, TextAlignment_of_u32 (TextAlignment_to_u32 e) = Ok e)
  /\ (forall e : TriggerShape, TriggerShape_of_u32 (TriggerShape_to_u32 e) = Ok e)
  /\ (forall e : ViewLayoutMode, ViewLayoutMode_of_u32 (ViewLayoutMode_to_u32 e) = Ok e)
  /\ (forall e : MaterialType, MaterialType_of_i32 (MaterialType_to_i32 e) = Ok e)
  /\ (forall e : RenderProbeType, RenderProbeType_of_u32 (RenderProbeType_to_u32 e) = Ok e)
  /\ (forall e : ReflectionMode, ReflectionMode_of_u32 (ReflectionMode_to_u32 e) = Ok e)
  /\ (forall e : OutputTarget, OutputTarget_of_u8 (OutputTarget_to_u8 e) = Ok e).
Proof. exact (conj DecalType_roundtrip (conj SizingType_roundtrip (conj Filter_roundtrip (conj RenderMode_roundtrip (conj DmdStyle_roundtrip (conj DisplayStyle_roundtrip (conj SegStyle_roundtrip (conj SegFamily_roundtrip (conj TargetType_roundtrip (conj KickerType_roundtrip (conj ShadowMode_roundtrip (conj Fader_roundtrip (conj VisibilityMask_roundtrip (conj SpaceReference_roundtrip (conj PlungerType_roundtrip (conj RampType_roundtrip (conj RampImageAlignment_roundtrip (conj TextAlignment_roundtrip (conj TriggerShape_roundtrip (conj ViewLayoutMode_roundtrip (conj MaterialType_roundtrip (conj RenderProbeType_roundtrip (conj ReflectionMode_roundtrip OutputTarget_roundtrip))))))))))))))))))))))). Qed.
Print Assumptions C41_values_read_back.

(** Every integer an enumeration knows is accepted and written back unchanged. *)
Theorem C41_known_codes_keep_their_integer :
  (forall x, In (w32_to_Z x) [0; 1] -> exists e, DecalType_of_u32 x = Ok e /\ DecalType_to_u32 e = x)
  /\ (forall x, In (w32_to_Z x) [0; 1; 2] -> exists e, SizingType_of_u32 x = Ok e /\ SizingType_to_u32 e = x)
  /\ (forall x, In (w32_to_Z x) [0; 1; 2; 3; 4] -> exists e, Filter_of_u32 x = Ok e /\ Filter_to_u32 e = x)
  /\ (forall x, In (w32_to_Z x) [0; 1; 2; 3; 4] -> exists e, RenderMode_of_u32 x = Ok e /\ RenderMode_to_u32 e = x)
  /\ (forall x, In (w32_to_Z x) [0; 1; 2; 3; 4; 5; 6] -> exists e, DmdStyle_of_u32 x = Ok e /\ DmdStyle_to_u32 e = x)
  /\ (forall x, In (w32_to_Z x) [0; 1; 2] -> exists e, DisplayStyle_of_u32 x = Ok e /\ DisplayStyle_to_u32 e = x)
  /\ (forall x, In (w32_to_Z x) [0; 1; 2; 3; 4; 5; 6; 7] -> exists e, SegStyle_of_u32 x = Ok e /\ SegStyle_to_u32 e = x)
  /\ (forall x, In (w32_to_Z x) [0; 1; 2; 3; 4] -> exists e, SegFamily_of_u32 x = Ok e /\ SegFamily_to_u32 e = x)
  /\ (forall x, In (w32_to_Z x) [1; 2; 3; 4] -> exists e, GateType_of_u32 x = Ok e /\ GateType_to_u32 e = x)
  /\ (forall x, In (w32_to_Z x) [1; 2; 3; 4; 5; 6; 7; 8; 9] -> exists e, TargetType_of_u32 x = Ok e /\ TargetType_to_u32 e = x)
  /\ (forall x, In (w32_to_Z x) [0; 1; 2; 3; 4; 5; 6] -> exists e, KickerType_of_u32 x = Ok e /\ KickerType_to_u32 e = x)
  /\ (forall x, In (w32_to_Z x) [0; 1] -> exists e, ShadowMode_of_u32 x = Ok e /\ ShadowMode_to_u32 e = x)
  /\ (forall x, In (w32_to_Z x) [0; 1; 2] -> exists e, Fader_of_u32 x = Ok e /\ Fader_to_u32 e = x)
  /\ (forall x, In (w32_to_Z x) [1; 2; 4; 8; 16; 32; 64; 128] -> exists e, VisibilityMask_of_u32 x = Ok e /\ VisibilityMask_to_u32 e = x)
  /\ (forall x, In (w32_to_Z x) [0; 1; 2; 3; 4] -> exists e, SpaceReference_of_u32 x = Ok e /\ SpaceReference_to_u32 e = x)
  /\ (forall x, In (w32_to_Z x) [0; 1; 2; 3] -> exists e, PlungerType_of_u32 x = Ok e /\ PlungerType_to_u32 e = x)
  /\ (forall x, In (w32_to_Z x) [0; 1; 2; 3; 4; 5] -> exists e, RampType_of_u32 x = Ok e /\ RampType_to_u32 e = x)
  /\ (forall x, In (w32_to_Z x) [0; 1; 2] -> exists e, RampImageAlignment_of_u32 x = Ok e /\ RampImageAlignment_to_u32 e = x)
  /\ (forall x, In (w32_to_Z x) [0; 1; 2] -> exists e, TextAlignment_of_u32 x = Ok e /\ TextAlignment_to_u32 e = x)
  /\ (forall x, In (w32_to_Z x) [0; 1; 2; 3; 4; 5; 6; 7] -> exists e, TriggerShape_of_u32 x = Ok e /\ TriggerShape_to_u32 e = x)
  /\ (forall x, In (w32_to_Z x) [0; 1; 2] -> exists e, ViewLayoutMode_of_u32 x = Ok e /\ ViewLayoutMode_to_u32 e = x)
  /\ (forall x, In (w32_to_Z x) [0; 1; 2; 3; 4] -> exists e, ToneMapper_of_u32 x = Ok e /\ ToneMapper_to_u32 e = x)
  /\ (forall x, In (w32_to_Z x) [4294967295; 0; 1] -> exists e, MaterialType_of_i32 x = Ok e /\ MaterialType_to_i32 e = x)
  /\ (forall x, In (w32_to_Z x) [0; 1] -> exists e, RenderProbeType_of_u32 x = Ok e /\ RenderProbeType_to_u32 e = x)
  /\ (forall x, In (w32_to_Z x) [0; 1; 2; 3; 4; 5; 6] -> exists e, ReflectionMode_of_u32 x = Ok e /\ ReflectionMode_to_u32 e = x)
  /\ (forall x, In (byte_to_Z x) [0; 1] -> exists e, OutputTarget_of_u8 x = Ok e /\ OutputTarget_to_u8 e = x).
Proof. exact (conj DecalType_known (conj SizingType_known (conj Filter_known (conj RenderMode_known (conj DmdStyle_known (conj DisplayStyle_known (conj SegStyle_known (conj SegFamily_known (conj GateType_known (conj TargetType_known (conj KickerType_known (conj ShadowMode_known (conj Fader_known (conj VisibilityMask_known (conj SpaceReference_known (conj PlungerType_known (conj RampType_known (conj RampImageAlignment_known (conj TextAlignment_known (conj TriggerShape_known (conj ViewLayoutMode_known (conj ToneMapper_known (conj MaterialType_known (conj RenderProbeType_known (conj ReflectionMode_known OutputTarget_known))))))))))))))))))))))))). Qed.
Print Assumptions C41_known_codes_keep_their_integer.

(** Every other integer is rejected (the conversion panics) by these enumerations. *)
Theorem C41_unknown_codes_rejected :
  (forall x, ~ In (w32_to_Z x) [0; 1] -> DecalType_of_u32 x = Panic)
  /\ (forall x, ~ In (w32_to_Z x) [0; 1; 2] -> SizingType_of_u32 x = Panic)
  /\ (forall x, ~ In (w32_to_Z x) [0; 1; 2; 3; 4] -> Filter_of_u32 x = Panic)
  /\ (forall x, ~ In (w32_to_Z x) [0; 1; 2; 3; 4] -> RenderMode_of_u32 x = Panic)
  /\ (forall x, ~ In (w32_to_Z x) [0; 1; 2; 3; 4; 5; 6] -> DmdStyle_of_u32 x = Panic)
  /\ (forall x, ~ In (w32_to_Z x) [0; 1; 2] -> DisplayStyle_of_u32 x = Panic)
  /\ (forall x, ~ In (w32_to_Z x) [0; 1; 2; 3; 4; 5; 6; 7] -> SegStyle_of_u32 x = Panic)
  /\ (forall x, ~ In (w32_to_Z x) [0; 1; 2; 3; 4] -> SegFamily_of_u32 x = Panic)
  /\ (forall x, ~ In (w32_to_Z x) [1; 2; 3; 4; 5; 6; 7; 8; 9] -> TargetType_of_u32 x = Panic)
  /\ (forall x, ~ In (w32_to_Z x) [0; 1; 2; 3; 4; 5; 6] -> KickerType_of_u32 x = Panic)
  /\ (forall x, ~ In (w32_to_Z x) [0; 1] -> ShadowMode_of_u32 x = Panic)
  /\ (forall x, ~ In (w32_to_Z x) [0; 1; 2] -> Fader_of_u32 x = Panic)
  /\ (forall x, ~ In (w32_to_Z x) [1; 2; 4; 8; 16; 32; 64; 128] -> VisibilityMask_of_u32 x = Panic)
  /\ (forall x, ~ In (w32_to_Z x) [0; 1; 2; 3; 4] -> SpaceReference_of_u32 x = Panic)
  /\ (forall x, ~ In (w32_to_Z x) [0; 1; 2; 3] -> PlungerType_of_u32 x = Panic)
  /\ (forall x, ~ In (w32_to_Z x) [0; 1; 2; 3; 4; 5] -> RampType_of_u32 x = Panic)
  /\ (forall x, ~ In (w32_to_Z x) [0; 1; 2] -> RampImageAlignment_of_u32 x = Panic)
  /\ (forall x, ~ In (w32_to_Z x) [0; 1; 2] -> TextAlignment_of_u32 x = Panic)
  /\ (forall x, ~ In (w32_to_Z x) [0; 1; 2] -> ViewLayoutMode_of_u32 x = Panic)
  /\ (forall x, ~ In (w32_to_Z x) [4294967295; 0; 1] -> MaterialType_of_i32 x = Panic)
  /\ (forall x, ~ In (w32_to_Z x) [0; 1] -> RenderProbeType_of_u32 x = Panic)
  /\ (forall x, ~ In (w32_to_Z x) [0; 1; 2; 3; 4; 5; 6] -> ReflectionMode_of_u32 x = Panic)
  /\ (forall x, ~ In (byte_to_Z x) [0; 1] -> OutputTarget_of_u8 x = Panic).
Proof. exact (conj DecalType_unknown (conj SizingType_unknown (conj Filter_unknown (conj RenderMode_unknown (conj DmdStyle_unknown (conj DisplayStyle_unknown (conj SegStyle_unknown (conj SegFamily_unknown (conj TargetType_unknown (conj KickerType_unknown (conj ShadowMode_unknown (conj Fader_unknown (conj VisibilityMask_unknown (conj SpaceReference_unknown (conj PlungerType_unknown (conj RampType_unknown (conj RampImageAlignment_unknown (conj TextAlignment_unknown (conj ViewLayoutMode_unknown (conj MaterialType_unknown (conj RenderProbeType_unknown (conj ReflectionMode_unknown OutputTarget_unknown)))))))))))))))))))))). Qed.
Print Assumptions C41_unknown_codes_rejected.

(** Every other integer becomes the fallback value here. *)
Theorem C41_unknown_codes_fallback :
  (forall x, ~ In (w32_to_Z x) [0; 1; 2; 3; 4; 5; 6; 7] -> TriggerShape_of_u32 x = Ok TriggerShape_WireA).
Proof. exact TriggerShape_unknown. Qed.
Print Assumptions C41_unknown_codes_fallback.

(** GateType keeps unknown integers: whatever integer is read is the integer written back. *)
Theorem C41_GateType_preserves_every_integer :
  forall x : u32, exists e, GateType_of_u32 x = Ok e /\ GateType_to_u32 e = x.
Proof. exact GateType_preserves. Qed.
Print Assumptions C41_GateType_preserves_every_integer.

(** Its values read back, provided the payload of [Unknown] is not one of the known integers ... *)
Theorem C41_GateType_values_read_back :
  forall e : GateType, (forall n, e = GateType_Unknown n -> ~ In (w32_to_Z n) [1; 2; 3; 4]) -> GateType_of_u32 (GateType_to_u32 e) = Ok e.
Proof. exact GateType_values. Qed.
Print Assumptions C41_GateType_values_read_back.

(** ... and without that proviso they do not: a value built by hand changes. *)
Theorem C41_GateType_values_read_back_refuted :
  exists e : GateType, GateType_of_u32 (GateType_to_u32 e) <> Ok e.
Proof. exact GateType_values_refuted. Qed.
Print Assumptions C41_GateType_values_read_back_refuted.

(** ToneMapper keeps unknown integers: whatever integer is read is the integer written back. *)
Theorem C41_ToneMapper_preserves_every_integer :
  forall x : u32, exists e, ToneMapper_of_u32 x = Ok e /\ ToneMapper_to_u32 e = x.
Proof. exact ToneMapper_preserves. Qed.
Print Assumptions C41_ToneMapper_preserves_every_integer.

(** Its values read back, provided the payload of [Other] is not one of the known integers ... *)
Theorem C41_ToneMapper_values_read_back :
  forall e : ToneMapper, (forall n, e = ToneMapper_Other n -> ~ In (w32_to_Z n) [0; 1; 2; 3; 4]) -> ToneMapper_of_u32 (ToneMapper_to_u32 e) = Ok e.
Proof. exact ToneMapper_values. Qed.
Print Assumptions C41_ToneMapper_values_read_back.

(** ... and without that proviso they do not: a value built by hand changes. *)
Theorem C41_ToneMapper_values_read_back_refuted :
  exists e : ToneMapper, ToneMapper_of_u32 (ToneMapper_to_u32 e) <> Ok e.
Proof. exact ToneMapper_values_refuted. Qed.
Print Assumptions C41_ToneMapper_values_read_back_refuted.

(** Every value reads back from its JSON form. *)
Theorem C41_json_values_read_back :
  (forall e : DecalType, DecalType_of_json (DecalType_to_json e) = Ok e)
  /\ (forall e : SizingType, SizingType_of_json (SizingType_to_json e) = Ok e)
  /\ (forall e : Filter, Filter_of_json (Filter_to_json e) = Ok e)
  /\ (forall e : RenderMode, RenderMode_of_json (RenderMode_to_json e) = Ok e)
  /\ (forall e : TargetType, TargetType_of_json (TargetType_to_json e) = Ok e)
  /\ (forall e : KickerType, KickerType_of_json (KickerType_to_json e) = Ok e)
  /\ (forall e : ShadowMode, ShadowMode_of_json (ShadowMode_to_json e) = Ok e)
  /\ (forall e : Fader, Fader_of_json (Fader_to_json e) = Ok e)
  /\ (forall e : SpaceReference, SpaceReference_of_json (SpaceReference_to_json e) = Ok e)
  /\ (forall e : PlungerType, PlungerType_of_json (PlungerType_to_json e) = Ok e)
  /\ (forall e : RampType, RampType_of_json (RampType_to_json e) = Ok e)
  /\ (forall e : RampImageAlignment, RampImageAlignment_of_json (RampImageAlignment_to_json e) = Ok e)
  /\ (forall e : TextAlignment, TextAlignment_of_json (TextAlignment_to_json e) = Ok e)
  /\ (forall e : TriggerShape, TriggerShape_of_json (TriggerShape_to_json e) = Ok e)
  /\ (forall e : ViewLayoutMode, ViewLayoutMode_of_json (ViewLayoutMode_to_json e) = Ok e)
  /\ (forall e : MaterialType, MaterialType_of_json (MaterialType_to_json e) = Ok e)
  /\ (forall e : RenderProbeType, RenderProbeType_of_json (RenderProbeType_to_json e) = Ok e)
  /\ (forall e : ReflectionMode, ReflectionMode_of_json (ReflectionMode_to_json e) = Ok e)
  /\ (forall e : OutputTarget, OutputTarget_of_json (OutputTarget_to_json e) = Ok e).
Proof. exact (conj DecalType_json (conj SizingType_json (conj Filter_json (conj RenderMode_json (conj TargetType_json (conj KickerType_json (conj ShadowMode_json (conj Fader_json (conj SpaceReference_json (conj PlungerType_json (conj RampType_json (conj RampImageAlignment_json (conj TextAlignment_json (conj TriggerShape_json (conj ViewLayoutMode_json (conj MaterialType_json (conj RenderProbeType_json (conj ReflectionMode_json OutputTarget_json)))))))))))))))))). Qed.
Print Assumptions C41_json_values_read_back.

(** The hypotheses are met: a known and an unknown integer. *)
Example C41_known_example : In (w32_to_Z (Z_to_w32 2)) [0; 1; 2; 3; 4; 5; 6] /\ ~ In (w32_to_Z (Z_to_w32 7)) [0; 1; 2; 3; 4; 5; 6].
Proof. split; vm_compute; [tauto|]. intros H; repeat destruct H as [H|H]; try discriminate H; exact H. Qed.
Example C41_payload_example : GateType_of_u32 (Z_to_w32 77) = Ok (GateType_Unknown (Z_to_w32 77)).
Proof. reflexivity. Qed.

(** What writing game items as JSON must keep. *)
From Verif Require Import Base Text Biff Common Enums ItemWall ItemFlipper ItemTimer ItemPlunger ItemTextBox ItemBumper ItemTrigger ItemLight ItemKicker ItemDecal ItemGate ItemSpinner ItemRamp ItemReel ItemLightSequencer ItemPrimitive ItemFlasher ItemRubber ItemHitTarget ItemBall ItemPartGroup GameItem SpecJson SpecJsonRecords SpecJsonItems.

(** The plain floats of the item are finite; the tags of an item of unknown type are texts, as they are in the program. *)
Definition text_tag (t : string) : Prop := exists s, is_rstring s = true /\ list_byte_of_string t = utf8_encode s.
Definition GI_finite (i : GameItem) : Prop :=
  match i with
  | GI_Wall v => Wall_finite v
  | GI_Flipper v => Flipper_finite v
  | GI_Timer v => Timer_finite v
  | GI_Plunger v => Plunger_finite v
  | GI_TextBox v => TextBox_finite v
  | GI_Bumper v => Bumper_finite v
  | GI_Trigger v => Trigger_finite v
  | GI_Light v => Light_finite v
  | GI_Kicker v => Kicker_finite v
  | GI_Decal v => Decal_finite v
  | GI_Gate v => Gate_finite v
  | GI_Spinner v => Spinner_finite v
  | GI_Ramp v => Ramp_finite v
  | GI_Reel v => Reel_finite v
  | GI_LightSequencer v => LightSequencer_finite v
  | GI_Primitive v => Primitive_finite v
  | GI_Flasher v => Flasher_finite v
  | GI_Rubber v => Rubber_finite v
  | GI_HitTarget v => HitTarget_finite v
  | GI_Ball v => Ball_finite v
  | GI_PartGroup v => PartGroup_finite v
  | GI_Generic _ g => Forall (fun f => text_tag (fst f)) (Generic_fields g)
  end.
(** The mesh of a primitive is in files of its own. *)
Definition GI_without_mesh (i : GameItem) : GameItem :=
  match i with
  | GI_Primitive p => GI_Primitive
      (set_Primitive_compressed_animation_vertices_data None (set_Primitive_compressed_animation_vertices_len None
        (set_Primitive_compressed_indices_data None (set_Primitive_compressed_indices_len None (set_Primitive_num_indices None
          (set_Primitive_compressed_vertices_data None (set_Primitive_compressed_vertices_len None (set_Primitive_num_vertices None p))))))))
  | _ => i
  end.

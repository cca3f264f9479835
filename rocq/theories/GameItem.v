(** Generated by tools/gen_gameitem.py from src/vpx/gameitem.rs and src/vpx/gameitem/generic.rs. *)
From Verif Require Import Base Text Biff Quantize Common Enums ItemBase.
From Verif Require Import ItemWall ItemFlipper ItemTimer ItemPlunger ItemTextBox ItemBumper ItemTrigger ItemLight ItemKicker ItemDecal ItemGate ItemSpinner ItemRamp ItemReel ItemLightSequencer ItemPrimitive ItemFlasher ItemRubber ItemHitTarget ItemBall ItemPartGroup.
From Coq Require Import DecimalString.

(** gameitem/generic.rs:10-13 *)
Record Generic : Type := mkGeneric { Generic_name : rstring; Generic_fields : list (string * bytes) }.
(** gameitem/generic.rs:64-72: the body of the record loop *)
Definition Generic_handler (t : string) (s : Generic) : rd_M Generic :=
  if (t =? "NAME")%string then x <- get_wide_string ;; rret (mkGeneric x (Generic_fields s))
  else d <- get_record_data false ;; rret (mkGeneric (Generic_name s) (Generic_fields s ++ [(t, d)])).
(** gameitem/generic.rs:53-76 *)
Definition Generic_read : rd_M Generic := run_loop Generic_handler (mkGeneric [] []).

(** gameitem.rs:46-69 *)
Inductive GameItem : Type :=
| GI_Wall (v : Wall)
| GI_Flipper (v : Flipper)
| GI_Timer (v : Timer)
| GI_Plunger (v : Plunger)
| GI_TextBox (v : TextBox)
| GI_Bumper (v : Bumper)
| GI_Trigger (v : Trigger)
| GI_Light (v : Light)
| GI_Kicker (v : Kicker)
| GI_Decal (v : Decal)
| GI_Gate (v : Gate)
| GI_Spinner (v : Spinner)
| GI_Ramp (v : Ramp)
| GI_Reel (v : Reel)
| GI_LightSequencer (v : LightSequencer)
| GI_Primitive (v : Primitive)
| GI_Flasher (v : Flasher)
| GI_Rubber (v : Rubber)
| GI_HitTarget (v : HitTarget)
| GI_Ball (v : Ball)
| GI_PartGroup (v : PartGroup)
| GI_Generic (t : u32) (g : Generic).

(** gameitem.rs:849-890 *)
Definition GameItem_read : rd_M GameItem :=
  t <- get_u32_no_remaining_update ;;
  let z := w32_to_Z t in
  if z =? 0 then v <- Wall_read ;; rret (GI_Wall v) else
  if z =? 1 then v <- Flipper_read ;; rret (GI_Flipper v) else
  if z =? 2 then v <- Timer_read ;; rret (GI_Timer v) else
  if z =? 3 then v <- Plunger_read ;; rret (GI_Plunger v) else
  if z =? 4 then v <- TextBox_read ;; rret (GI_TextBox v) else
  if z =? 5 then v <- Bumper_read ;; rret (GI_Bumper v) else
  if z =? 6 then v <- Trigger_read ;; rret (GI_Trigger v) else
  if z =? 7 then v <- Light_read ;; rret (GI_Light v) else
  if z =? 8 then v <- Kicker_read ;; rret (GI_Kicker v) else
  if z =? 9 then v <- Decal_read ;; rret (GI_Decal v) else
  if z =? 10 then v <- Gate_read ;; rret (GI_Gate v) else
  if z =? 11 then v <- Spinner_read ;; rret (GI_Spinner v) else
  if z =? 12 then v <- Ramp_read ;; rret (GI_Ramp v) else
  if z =? 13 then rpanic else
  if z =? 14 then rpanic else
  if z =? 15 then rpanic else
  if z =? 16 then rpanic else
  if z =? 17 then v <- Reel_read ;; rret (GI_Reel v) else
  if z =? 18 then v <- LightSequencer_read ;; rret (GI_LightSequencer v) else
  if z =? 19 then v <- Primitive_read ;; rret (GI_Primitive v) else
  if z =? 20 then v <- Flasher_read ;; rret (GI_Flasher v) else
  if z =? 21 then v <- Rubber_read ;; rret (GI_Rubber v) else
  if z =? 22 then v <- HitTarget_read ;; rret (GI_HitTarget v) else
  if z =? 23 then v <- Ball_read ;; rret (GI_Ball v) else
  if z =? 24 then v <- PartGroup_read ;; rret (GI_PartGroup v) else
  g <- Generic_read ;; rret (GI_Generic t g).
Definition gameitem_read (checked : bool) (input : bytes) : res GameItem :=
  match GameItem_read (rd_new checked input) with Ok (i, _) => Ok i | Fail f => Fail f end.

(** gameitem.rs:925-930 *)
Definition write_with_type (t : Z) (m : wr_M) : res bytes := run_writer (write_u32 (Z_to_w32 t) >>> m).
(** gameitem.rs:892-923; [unimplemented!] is a panic *)
Definition gameitem_write (i : GameItem) : res bytes :=
  match i with
  | GI_Wall v => write_with_type 0 (Wall_write v)
  | GI_Flipper v => write_with_type 1 (Flipper_write v)
  | GI_Timer v => write_with_type 2 (Timer_write v)
  | GI_Plunger v => write_with_type 3 (Plunger_write v)
  | GI_TextBox v => write_with_type 4 (TextBox_write v)
  | GI_Bumper v => write_with_type 5 (Bumper_write v)
  | GI_Trigger v => write_with_type 6 (Trigger_write v)
  | GI_Light v => write_with_type 7 (Light_write v)
  | GI_Kicker v => write_with_type 8 (Kicker_write v)
  | GI_Decal v => write_with_type 9 (Decal_write v)
  | GI_Gate v => write_with_type 10 (Gate_write v)
  | GI_Spinner v => write_with_type 11 (Spinner_write v)
  | GI_Ramp v => write_with_type 12 (Ramp_write v)
  | GI_Reel v => write_with_type 17 (Reel_write v)
  | GI_LightSequencer v => write_with_type 18 (LightSequencer_write v)
  | GI_Primitive v => write_with_type 19 (Primitive_write v)
  | GI_Flasher v => write_with_type 20 (Flasher_write v)
  | GI_Rubber v => write_with_type 21 (Rubber_write v)
  | GI_HitTarget v => write_with_type 22 (HitTarget_write v)
  | GI_Ball v => write_with_type 23 (Ball_write v)
  | GI_PartGroup v => write_with_type 24 (PartGroup_write v)
  | GI_Generic _ _ => Panic
  end.

(** gameitem.rs:74-99 *)
Definition GI_editor_layer_visibility (i : GameItem) : option bool :=
  match i with
  | GI_Wall v => Wall_editor_layer_visibility v
  | GI_Flipper v => Flipper_editor_layer_visibility v
  | GI_Timer v => Timer_editor_layer_visibility v
  | GI_Plunger v => Plunger_editor_layer_visibility v
  | GI_TextBox v => TextBox_editor_layer_visibility v
  | GI_Bumper v => Bumper_editor_layer_visibility v
  | GI_Trigger v => Trigger_editor_layer_visibility v
  | GI_Light v => Light_editor_layer_visibility v
  | GI_Kicker v => Kicker_editor_layer_visibility v
  | GI_Decal v => Decal_editor_layer_visibility v
  | GI_Gate v => Gate_editor_layer_visibility v
  | GI_Spinner v => Spinner_editor_layer_visibility v
  | GI_Ramp v => Ramp_editor_layer_visibility v
  | GI_Reel v => Reel_editor_layer_visibility v
  | GI_LightSequencer v => LightSequencer_editor_layer_visibility v
  | GI_Primitive v => Primitive_editor_layer_visibility v
  | GI_Flasher v => Flasher_editor_layer_visibility v
  | GI_Rubber v => Rubber_editor_layer_visibility v
  | GI_HitTarget v => HitTarget_editor_layer_visibility v
  | GI_Ball v => Ball_editor_layer_visibility v
  | GI_PartGroup v => PartGroup_editor_layer_visibility v
  | GI_Generic _ _ => None
  end.

(** gameitem.rs:101-126 *)
Definition GI_editor_layer_name (i : GameItem) : option rstring :=
  match i with
  | GI_Wall v => Wall_editor_layer_name v
  | GI_Flipper v => Flipper_editor_layer_name v
  | GI_Timer v => Timer_editor_layer_name v
  | GI_Plunger v => Plunger_editor_layer_name v
  | GI_TextBox v => TextBox_editor_layer_name v
  | GI_Bumper v => Bumper_editor_layer_name v
  | GI_Trigger v => Trigger_editor_layer_name v
  | GI_Light v => Light_editor_layer_name v
  | GI_Kicker v => Kicker_editor_layer_name v
  | GI_Decal v => Decal_editor_layer_name v
  | GI_Gate v => Gate_editor_layer_name v
  | GI_Spinner v => Spinner_editor_layer_name v
  | GI_Ramp v => Ramp_editor_layer_name v
  | GI_Reel v => Reel_editor_layer_name v
  | GI_LightSequencer v => LightSequencer_editor_layer_name v
  | GI_Primitive v => Primitive_editor_layer_name v
  | GI_Flasher v => Flasher_editor_layer_name v
  | GI_Rubber v => Rubber_editor_layer_name v
  | GI_HitTarget v => HitTarget_editor_layer_name v
  | GI_Ball v => Ball_editor_layer_name v
  | GI_PartGroup v => PartGroup_editor_layer_name v
  | GI_Generic _ _ => None
  end.

(** gameitem.rs:128-153 *)
Definition GI_editor_layer (i : GameItem) : option u32 :=
  match i with
  | GI_Wall v => Wall_editor_layer v
  | GI_Flipper v => Flipper_editor_layer v
  | GI_Timer v => Timer_editor_layer v
  | GI_Plunger v => Plunger_editor_layer v
  | GI_TextBox v => TextBox_editor_layer v
  | GI_Bumper v => Bumper_editor_layer v
  | GI_Trigger v => Trigger_editor_layer v
  | GI_Light v => Light_editor_layer v
  | GI_Kicker v => Kicker_editor_layer v
  | GI_Decal v => Decal_editor_layer v
  | GI_Gate v => Gate_editor_layer v
  | GI_Spinner v => Spinner_editor_layer v
  | GI_Ramp v => Ramp_editor_layer v
  | GI_Reel v => Reel_editor_layer v
  | GI_LightSequencer v => LightSequencer_editor_layer v
  | GI_Primitive v => Primitive_editor_layer v
  | GI_Flasher v => Flasher_editor_layer v
  | GI_Rubber v => Rubber_editor_layer v
  | GI_HitTarget v => HitTarget_editor_layer v
  | GI_Ball v => Ball_editor_layer v
  | GI_PartGroup _ => None
  | GI_Generic _ _ => None
  end.

(** gameitem.rs:155-180 *)
Definition GI_is_locked (i : GameItem) : option bool :=
  match i with
  | GI_Wall v => Some (Wall_is_locked v)
  | GI_Flipper v => Some (Flipper_is_locked v)
  | GI_Timer v => Some (Timer_is_locked v)
  | GI_Plunger v => Some (Plunger_is_locked v)
  | GI_TextBox v => Some (TextBox_is_locked v)
  | GI_Bumper v => Some (Bumper_is_locked v)
  | GI_Trigger v => Some (Trigger_is_locked v)
  | GI_Light v => Some (Light_is_locked v)
  | GI_Kicker v => Some (Kicker_is_locked v)
  | GI_Decal v => Some (Decal_is_locked v)
  | GI_Gate v => Some (Gate_is_locked v)
  | GI_Spinner v => Some (Spinner_is_locked v)
  | GI_Ramp v => Some (Ramp_is_locked v)
  | GI_Reel v => Some (Reel_is_locked v)
  | GI_LightSequencer v => LightSequencer_is_locked v
  | GI_Primitive v => Some (Primitive_is_locked v)
  | GI_Flasher v => Some (Flasher_is_locked v)
  | GI_Rubber v => Some (Rubber_is_locked v)
  | GI_HitTarget v => Some (HitTarget_is_locked v)
  | GI_Ball v => Some (Ball_is_locked v)
  | GI_PartGroup v => Some (PartGroup_is_locked v)
  | GI_Generic _ _ => None
  end.

(** gameitem.rs:531-559 *)
Definition GI_part_group_name (i : GameItem) : option rstring :=
  match i with
  | GI_Wall v => Wall_part_group_name v
  | GI_Flipper v => Flipper_part_group_name v
  | GI_Timer v => Timer_part_group_name v
  | GI_Plunger v => Plunger_part_group_name v
  | GI_TextBox v => TextBox_part_group_name v
  | GI_Bumper v => Bumper_part_group_name v
  | GI_Trigger v => Trigger_part_group_name v
  | GI_Light v => Light_part_group_name v
  | GI_Kicker v => Kicker_part_group_name v
  | GI_Decal v => Decal_part_group_name v
  | GI_Gate v => Gate_part_group_name v
  | GI_Spinner v => Spinner_part_group_name v
  | GI_Ramp v => Ramp_part_group_name v
  | GI_Reel v => Reel_part_group_name v
  | GI_LightSequencer v => LightSequencer_part_group_name v
  | GI_Primitive v => Primitive_part_group_name v
  | GI_Flasher v => Flasher_part_group_name v
  | GI_Rubber v => Rubber_part_group_name v
  | GI_HitTarget v => HitTarget_part_group_name v
  | GI_Ball v => Ball_part_group_name v
  | GI_PartGroup _ => None
  | GI_Generic _ _ => None
  end.

(** gameitem.rs:442-467 *)
Definition GI_name (i : GameItem) : rstring :=
  match i with
  | GI_Wall v => Wall_name v
  | GI_Flipper v => Flipper_name v
  | GI_Timer v => Timer_name v
  | GI_Plunger v => Plunger_name v
  | GI_TextBox v => TextBox_name v
  | GI_Bumper v => Bumper_name v
  | GI_Trigger v => Trigger_name v
  | GI_Light v => Light_name v
  | GI_Kicker v => Kicker_name v
  | GI_Decal v => Decal_name v
  | GI_Gate v => Gate_name v
  | GI_Spinner v => Spinner_name v
  | GI_Ramp v => Ramp_name v
  | GI_Reel v => Reel_name v
  | GI_LightSequencer v => LightSequencer_name v
  | GI_Primitive v => Primitive_name v
  | GI_Flasher v => Flasher_name v
  | GI_Rubber v => Rubber_name v
  | GI_HitTarget v => HitTarget_name v
  | GI_Ball v => Ball_name v
  | GI_PartGroup v => PartGroup_name v
  | GI_Generic t g => Generic_name g
  end.

(** gameitem.rs:182-289 *)
Definition GI_set_locked (x : option bool) (i : GameItem) : GameItem :=
  match i with
  | GI_Wall v => GI_Wall (match x with Some b => set_Wall_is_locked b v | None => v end)
  | GI_Flipper v => GI_Flipper (match x with Some b => set_Flipper_is_locked b v | None => v end)
  | GI_Timer v => GI_Timer (match x with Some b => set_Timer_is_locked b v | None => v end)
  | GI_Plunger v => GI_Plunger (match x with Some b => set_Plunger_is_locked b v | None => v end)
  | GI_TextBox v => GI_TextBox (match x with Some b => set_TextBox_is_locked b v | None => v end)
  | GI_Bumper v => GI_Bumper (match x with Some b => set_Bumper_is_locked b v | None => v end)
  | GI_Trigger v => GI_Trigger (match x with Some b => set_Trigger_is_locked b v | None => v end)
  | GI_Light v => GI_Light (match x with Some b => set_Light_is_locked b v | None => v end)
  | GI_Kicker v => GI_Kicker (match x with Some b => set_Kicker_is_locked b v | None => v end)
  | GI_Decal v => GI_Decal (match x with Some b => set_Decal_is_locked b v | None => v end)
  | GI_Gate v => GI_Gate (match x with Some b => set_Gate_is_locked b v | None => v end)
  | GI_Spinner v => GI_Spinner (match x with Some b => set_Spinner_is_locked b v | None => v end)
  | GI_Ramp v => GI_Ramp (match x with Some b => set_Ramp_is_locked b v | None => v end)
  | GI_Reel v => GI_Reel (match x with Some b => set_Reel_is_locked b v | None => v end)
  | GI_LightSequencer v => GI_LightSequencer (set_LightSequencer_is_locked x v)
  | GI_Primitive v => GI_Primitive (match x with Some b => set_Primitive_is_locked b v | None => v end)
  | GI_Flasher v => GI_Flasher (match x with Some b => set_Flasher_is_locked b v | None => v end)
  | GI_Rubber v => GI_Rubber (match x with Some b => set_Rubber_is_locked b v | None => v end)
  | GI_HitTarget v => GI_HitTarget (match x with Some b => set_HitTarget_is_locked b v | None => v end)
  | GI_Ball v => GI_Ball (match x with Some b => set_Ball_is_locked b v | None => v end)
  | GI_PartGroup v => GI_PartGroup (match x with Some b => set_PartGroup_is_locked b v | None => v end)
  | GI_Generic t g => GI_Generic t g
  end.

(** gameitem.rs:291-356 *)
Definition GI_set_editor_layer (x : option u32) (i : GameItem) : GameItem :=
  match i with
  | GI_Wall v => GI_Wall (set_Wall_editor_layer x v)
  | GI_Flipper v => GI_Flipper (set_Flipper_editor_layer x v)
  | GI_Timer v => GI_Timer (set_Timer_editor_layer x v)
  | GI_Plunger v => GI_Plunger (set_Plunger_editor_layer x v)
  | GI_TextBox v => GI_TextBox (set_TextBox_editor_layer x v)
  | GI_Bumper v => GI_Bumper (set_Bumper_editor_layer x v)
  | GI_Trigger v => GI_Trigger (set_Trigger_editor_layer x v)
  | GI_Light v => GI_Light (set_Light_editor_layer x v)
  | GI_Kicker v => GI_Kicker (set_Kicker_editor_layer x v)
  | GI_Decal v => GI_Decal (set_Decal_editor_layer x v)
  | GI_Gate v => GI_Gate (set_Gate_editor_layer x v)
  | GI_Spinner v => GI_Spinner (set_Spinner_editor_layer x v)
  | GI_Ramp v => GI_Ramp (set_Ramp_editor_layer x v)
  | GI_Reel v => GI_Reel (set_Reel_editor_layer x v)
  | GI_LightSequencer v => GI_LightSequencer (set_LightSequencer_editor_layer x v)
  | GI_Primitive v => GI_Primitive (set_Primitive_editor_layer x v)
  | GI_Flasher v => GI_Flasher (set_Flasher_editor_layer x v)
  | GI_Rubber v => GI_Rubber (set_Rubber_editor_layer x v)
  | GI_HitTarget v => GI_HitTarget (set_HitTarget_editor_layer x v)
  | GI_Ball v => GI_Ball (set_Ball_editor_layer x v)
  | GI_PartGroup v => GI_PartGroup v
  | GI_Generic t g => GI_Generic t g
  end.

(** gameitem.rs:358-385 *)
Definition GI_set_editor_layer_name (x : option rstring) (i : GameItem) : GameItem :=
  match i with
  | GI_Wall v => GI_Wall (set_Wall_editor_layer_name x v)
  | GI_Flipper v => GI_Flipper (set_Flipper_editor_layer_name x v)
  | GI_Timer v => GI_Timer (set_Timer_editor_layer_name x v)
  | GI_Plunger v => GI_Plunger (set_Plunger_editor_layer_name x v)
  | GI_TextBox v => GI_TextBox (set_TextBox_editor_layer_name x v)
  | GI_Bumper v => GI_Bumper (set_Bumper_editor_layer_name x v)
  | GI_Trigger v => GI_Trigger (set_Trigger_editor_layer_name x v)
  | GI_Light v => GI_Light (set_Light_editor_layer_name x v)
  | GI_Kicker v => GI_Kicker (set_Kicker_editor_layer_name x v)
  | GI_Decal v => GI_Decal (set_Decal_editor_layer_name x v)
  | GI_Gate v => GI_Gate (set_Gate_editor_layer_name x v)
  | GI_Spinner v => GI_Spinner (set_Spinner_editor_layer_name x v)
  | GI_Ramp v => GI_Ramp (set_Ramp_editor_layer_name x v)
  | GI_Reel v => GI_Reel (set_Reel_editor_layer_name x v)
  | GI_LightSequencer v => GI_LightSequencer (set_LightSequencer_editor_layer_name x v)
  | GI_Primitive v => GI_Primitive (set_Primitive_editor_layer_name x v)
  | GI_Flasher v => GI_Flasher (set_Flasher_editor_layer_name x v)
  | GI_Rubber v => GI_Rubber (set_Rubber_editor_layer_name x v)
  | GI_HitTarget v => GI_HitTarget (set_HitTarget_editor_layer_name x v)
  | GI_Ball v => GI_Ball (set_Ball_editor_layer_name x v)
  | GI_PartGroup v => GI_PartGroup (set_PartGroup_editor_layer_name x v)
  | GI_Generic t g => GI_Generic t g
  end.

(** gameitem.rs:387-438 *)
Definition GI_set_editor_layer_visibility (x : option bool) (i : GameItem) : GameItem :=
  match i with
  | GI_Wall v => GI_Wall (set_Wall_editor_layer_visibility x v)
  | GI_Flipper v => GI_Flipper (set_Flipper_editor_layer_visibility x v)
  | GI_Timer v => GI_Timer (set_Timer_editor_layer_visibility x v)
  | GI_Plunger v => GI_Plunger (set_Plunger_editor_layer_visibility x v)
  | GI_TextBox v => GI_TextBox (set_TextBox_editor_layer_visibility x v)
  | GI_Bumper v => GI_Bumper (set_Bumper_editor_layer_visibility x v)
  | GI_Trigger v => GI_Trigger (set_Trigger_editor_layer_visibility x v)
  | GI_Light v => GI_Light (set_Light_editor_layer_visibility x v)
  | GI_Kicker v => GI_Kicker (set_Kicker_editor_layer_visibility x v)
  | GI_Decal v => GI_Decal (set_Decal_editor_layer_visibility x v)
  | GI_Gate v => GI_Gate (set_Gate_editor_layer_visibility x v)
  | GI_Spinner v => GI_Spinner (set_Spinner_editor_layer_visibility x v)
  | GI_Ramp v => GI_Ramp (set_Ramp_editor_layer_visibility x v)
  | GI_Reel v => GI_Reel (set_Reel_editor_layer_visibility x v)
  | GI_LightSequencer v => GI_LightSequencer (set_LightSequencer_editor_layer_visibility x v)
  | GI_Primitive v => GI_Primitive (set_Primitive_editor_layer_visibility x v)
  | GI_Flasher v => GI_Flasher (set_Flasher_editor_layer_visibility x v)
  | GI_Rubber v => GI_Rubber (set_Rubber_editor_layer_visibility x v)
  | GI_HitTarget v => GI_HitTarget (set_HitTarget_editor_layer_visibility x v)
  | GI_Ball v => GI_Ball (set_Ball_editor_layer_visibility x v)
  | GI_PartGroup v => GI_PartGroup (set_PartGroup_editor_layer_visibility x v)
  | GI_Generic t g => GI_Generic t g
  end.

(** [format!("{n}")] of an unsigned integer *)
Definition dec (n : Z) : rstring := lit (NilZero.string_of_uint (N.to_uint (Z.to_N n))).
(** gameitem.rs:469-494 *)
Definition GI_type_name (i : GameItem) : rstring :=
  match i with
  | GI_Wall _ => lit "Wall"
  | GI_Flipper _ => lit "Flipper"
  | GI_Timer _ => lit "Timer"
  | GI_Plunger _ => lit "Plunger"
  | GI_TextBox _ => lit "TextBox"
  | GI_Bumper _ => lit "Bumper"
  | GI_Trigger _ => lit "Trigger"
  | GI_Light _ => lit "Light"
  | GI_Kicker _ => lit "Kicker"
  | GI_Decal _ => lit "Decal"
  | GI_Gate _ => lit "Gate"
  | GI_Spinner _ => lit "Spinner"
  | GI_Ramp _ => lit "Ramp"
  | GI_Reel _ => lit "Reel"
  | GI_LightSequencer _ => lit "LightSequencer"
  | GI_Primitive _ => lit "Primitive"
  | GI_Flasher _ => lit "Flasher"
  | GI_Rubber _ => lit "Rubber"
  | GI_HitTarget _ => lit "HitTarget"
  | GI_Ball _ => lit "Ball"
  | GI_PartGroup _ => lit "PartGroup"
  | GI_Generic t _ => lit "Generic_" ++ dec (w32_to_Z t)
  end.

(** gameitem.rs:497-527; [unimplemented!] is a panic *)
Definition GI_type_ids : list (string * Z) :=
  [ ("Wall", 0); ("Flipper", 1); ("Timer", 2); ("Plunger", 3); ("TextBox", 4); ("Bumper", 5); ("Trigger", 6); ("Light", 7); ("Kicker", 8); ("Decal", 9); ("Gate", 10); ("Spinner", 11); ("Ramp", 12); ("Table", 13); ("LightCenter", 14); ("DragPoint", 15); ("Collection", 16); ("Reel", 17); ("LightSequencer", 18); ("Primitive", 19); ("Flasher", 20); ("Rubber", 21); ("HitTarget", 22); ("Ball", 23); ("PartGroup", 24); ("TypeCount", 25) ]%string.
Definition rstring_eqb (a b : rstring) : bool := if list_eq_dec N.eq_dec a b then true else false.
Fixpoint lookup_lit {A} (s : rstring) (l : list (string * A)) : res A :=
  match l with [] => Panic | (k, a) :: l' => if rstring_eqb s (lit k) then Ok a else lookup_lit s l' end.
Definition GI_type_id (s : rstring) : res Z := lookup_lit s GI_type_ids.

(** gameitem.rs: [push_nonempty] and [push_opt] of [images] and [materials] *)
Definition nonempty (s : rstring) : list rstring := match s with [] => [] | _ => [s] end.
Definition opt_nonempty (s : option rstring) : list rstring := match s with Some x => nonempty x | None => [] end.
(** gameitem.rs:565-619; [push_nonempty] and [push_opt] drop empty names *)
Definition GI_images (i : GameItem) : list rstring :=
  match i with
  | GI_Wall v => nonempty (Wall_image v) ++ nonempty (Wall_side_image v)
  | GI_Flipper v => opt_nonempty (Flipper_image v)
  | GI_Timer _ => []
  | GI_Plunger v => nonempty (Plunger_image v)
  | GI_TextBox _ => []
  | GI_Bumper _ => []
  | GI_Trigger _ => []
  | GI_Light v => nonempty (Light_image v)
  | GI_Kicker _ => []
  | GI_Decal v => nonempty (Decal_image v)
  | GI_Gate _ => []
  | GI_Spinner v => nonempty (Spinner_image v)
  | GI_Ramp v => nonempty (Ramp_image v)
  | GI_Reel v => nonempty (Reel_image v)
  | GI_LightSequencer _ => []
  | GI_Primitive v => nonempty (Primitive_image v) ++ opt_nonempty (Primitive_normal_map v) ++ opt_nonempty (Primitive_light_map v)
  | GI_Flasher v => nonempty (Flasher_image_a v) ++ nonempty (Flasher_image_b v) ++ opt_nonempty (Flasher_image_src_link v) ++ opt_nonempty (Flasher_light_map v)
  | GI_Rubber v => nonempty (Rubber_image v)
  | GI_HitTarget v => nonempty (HitTarget_image v)
  | GI_Ball v => nonempty (Ball_image v) ++ nonempty (Ball_image_decal v)
  | GI_PartGroup _ => []
  | GI_Generic _ _ => []
  end.

(** gameitem.rs:624-675; [push_nonempty] and [push_opt] drop empty names *)
Definition GI_materials (i : GameItem) : list rstring :=
  match i with
  | GI_Wall v => nonempty (Wall_top_material v) ++ nonempty (Wall_side_material v) ++ nonempty (Wall_slingshot_material v)
  | GI_Flipper v => nonempty (Flipper_material v) ++ nonempty (Flipper_rubber_material v)
  | GI_Timer _ => []
  | GI_Plunger v => nonempty (Plunger_material v)
  | GI_TextBox _ => []
  | GI_Bumper v => nonempty (Bumper_cap_material v) ++ nonempty (Bumper_base_material v) ++ opt_nonempty (Bumper_ring_material v) ++ nonempty (Bumper_socket_material v)
  | GI_Trigger v => nonempty (Trigger_material v)
  | GI_Light _ => []
  | GI_Kicker v => nonempty (Kicker_material v)
  | GI_Decal v => nonempty (Decal_material v)
  | GI_Gate v => nonempty (Gate_material v)
  | GI_Spinner v => nonempty (Spinner_material v)
  | GI_Ramp v => nonempty (Ramp_material v)
  | GI_Reel _ => []
  | GI_LightSequencer _ => []
  | GI_Primitive v => nonempty (Primitive_material v)
  | GI_Flasher _ => []
  | GI_Rubber v => nonempty (Rubber_material v)
  | GI_HitTarget v => nonempty (HitTarget_material v)
  | GI_Ball _ => []
  | GI_PartGroup _ => []
  | GI_Generic _ _ => []
  end.

(** gameitem.rs:680-690 *)
Definition GI_physics_material (i : GameItem) : option rstring :=
  match (match i with
         | GI_HitTarget v => HitTarget_physics_material v
         | GI_Primitive v => Primitive_physics_material v
         | GI_Ramp v => Ramp_physics_material v
         | GI_Rubber v => Rubber_physics_material v
         | GI_Wall v => Wall_physics_material v
         | _ => None end) with Some ((_ :: _) as s) => Some s | _ => None end.

(** gameitem.rs:697-725 *)
Definition GI_is_visible (i : GameItem) : option bool :=
  match i with
  | GI_Wall v => Some (Wall_is_top_bottom_visible v || Wall_is_side_visible v)
  | GI_Flipper v => Some (Flipper_is_visible v)
  | GI_Plunger v => Some (Plunger_is_visible v)
  | GI_Trigger v => Some (Trigger_is_visible v)
  | GI_Light v => Light_visible v
  | GI_Gate v => Some (Gate_is_visible v)
  | GI_Spinner v => Some (Spinner_is_visible v)
  | GI_Ramp v => Some (Ramp_is_visible v)
  | GI_Reel v => Some (Reel_is_visible v)
  | GI_Primitive v => Some (Primitive_is_visible v)
  | GI_Flasher v => Some (Flasher_is_visible v)
  | GI_Rubber v => Some (Rubber_is_visible v)
  | GI_HitTarget v => Some (HitTarget_is_visible v)
  | _ => None
  end.

(** gameitem.rs:734-761 [validate_part_group_order].  A warning is its format arguments: index, item name, type name and
    group name; the set of names is a list. *)
Record PartGroupWarning : Type := mkPGW { pgw_index : nat; pgw_name : rstring; pgw_type : rstring; pgw_group : rstring }.
Fixpoint validate_from (index : nat) (defined : list rstring) (items : list GameItem) : list PartGroupWarning :=
  match items with
  | [] => []
  | i :: items' =>
      let defined' := match i with GI_PartGroup pg => PartGroup_name pg :: defined | _ => defined end in
      (match GI_part_group_name i with
       | Some g => if existsb (rstring_eqb g) defined' then [] else [mkPGW index (GI_name i) (GI_type_name i) g]
       | None => []
       end) ++ validate_from (Datatypes.S index) defined' items'
  end.
Definition validate_part_group_order (items : list GameItem) : list PartGroupWarning := validate_from 0 [] items.

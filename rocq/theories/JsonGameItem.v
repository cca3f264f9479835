(** Game items as JSON and the index of the extracted items. *)
From Verif Require Import Base Text Biff Common Enums ItemWall ItemFlipper ItemTimer ItemPlunger ItemTextBox ItemBumper ItemTrigger ItemLight ItemKicker ItemDecal ItemGate ItemSpinner ItemRamp ItemReel ItemLightSequencer ItemPrimitive ItemFlasher ItemRubber ItemHitTarget ItemBall ItemPartGroup GameItem Json JsonItems.

Section GameItems.
Context {L : json_lib}.

(** The tag of a record of an item of unknown type: a [String], which the model keeps as its UTF-8 bytes *)
Definition jc_tag : jcodec string :=
  mkCodec (fun t => Jstr (match utf8_decode (list_byte_of_string t) with Some s => s | None => [] end))
    (fun j => match j with Jstr s => Ok (string_of_list_byte (utf8_encode s)) | _ => Err end) None.
(** gameitem/generic.rs:15-46 [GenericJson] *)
Definition jc_Generic : jcodec Generic :=
  jc_record (fun g => object [put "name" jc_string (Generic_name g); put "fields" (jc_list (jc_pair jc_tag (jc_list jc_u8))) (Generic_fields g)])
    (fun o => name <~ get o ["name"%string] jc_string ;; fields <~ get o ["fields"%string] (jc_list (jc_pair jc_tag (jc_list jc_u8))) ;;
              Ok (mkGeneric name fields)).
(** gameitem.rs:44-69: the derived form of an enumeration with contents is an object with one entry, named after the variant *)
Definition variant (name : string) (j : json) : json := Jobj [(name, j)].
Definition GameItem_to_json (i : GameItem) : json :=
  match i with
  | GI_Wall v => variant "Wall" (jc_to jc_Wall v)
  | GI_Flipper v => variant "Flipper" (jc_to jc_Flipper v)
  | GI_Timer v => variant "Timer" (jc_to jc_Timer v)
  | GI_Plunger v => variant "Plunger" (jc_to jc_Plunger v)
  | GI_TextBox v => variant "TextBox" (jc_to jc_TextBox v)
  | GI_Bumper v => variant "Bumper" (jc_to jc_Bumper v)
  | GI_Trigger v => variant "Trigger" (jc_to jc_Trigger v)
  | GI_Light v => variant "Light" (jc_to jc_Light v)
  | GI_Kicker v => variant "Kicker" (jc_to jc_Kicker v)
  | GI_Decal v => variant "Decal" (jc_to jc_Decal v)
  | GI_Gate v => variant "Gate" (jc_to jc_Gate v)
  | GI_Spinner v => variant "Spinner" (jc_to jc_Spinner v)
  | GI_Ramp v => variant "Ramp" (jc_to jc_Ramp v)
  | GI_Reel v => variant "Reel" (jc_to jc_Reel v)
  | GI_LightSequencer v => variant "LightSequencer" (jc_to jc_LightSequencer v)
  | GI_Primitive v => variant "Primitive" (jc_to jc_Primitive v)
  | GI_Flasher v => variant "Flasher" (jc_to jc_Flasher v)
  | GI_Rubber v => variant "Rubber" (jc_to jc_Rubber v)
  | GI_HitTarget v => variant "HitTarget" (jc_to jc_HitTarget v)
  | GI_Ball v => variant "Ball" (jc_to jc_Ball v)
  | GI_PartGroup v => variant "PartGroup" (jc_to jc_PartGroup v)
  | GI_Generic t g => variant "Generic" (jc_to (jc_pair jc_u32 jc_Generic) (t, g))
  end.
Definition GameItem_of_json (j : json) : res GameItem :=
  match j with
  | Jobj [(k, v)] =>
      if (k =? "Wall")%string then x <~ jc_of jc_Wall v ;; Ok (GI_Wall x) else
      if (k =? "Flipper")%string then x <~ jc_of jc_Flipper v ;; Ok (GI_Flipper x) else
      if (k =? "Timer")%string then x <~ jc_of jc_Timer v ;; Ok (GI_Timer x) else
      if (k =? "Plunger")%string then x <~ jc_of jc_Plunger v ;; Ok (GI_Plunger x) else
      if (k =? "TextBox")%string then x <~ jc_of jc_TextBox v ;; Ok (GI_TextBox x) else
      if (k =? "Bumper")%string then x <~ jc_of jc_Bumper v ;; Ok (GI_Bumper x) else
      if (k =? "Trigger")%string then x <~ jc_of jc_Trigger v ;; Ok (GI_Trigger x) else
      if (k =? "Light")%string then x <~ jc_of jc_Light v ;; Ok (GI_Light x) else
      if (k =? "Kicker")%string then x <~ jc_of jc_Kicker v ;; Ok (GI_Kicker x) else
      if (k =? "Decal")%string then x <~ jc_of jc_Decal v ;; Ok (GI_Decal x) else
      if (k =? "Gate")%string then x <~ jc_of jc_Gate v ;; Ok (GI_Gate x) else
      if (k =? "Spinner")%string then x <~ jc_of jc_Spinner v ;; Ok (GI_Spinner x) else
      if (k =? "Ramp")%string then x <~ jc_of jc_Ramp v ;; Ok (GI_Ramp x) else
      if (k =? "Reel")%string then x <~ jc_of jc_Reel v ;; Ok (GI_Reel x) else
      if (k =? "LightSequencer")%string then x <~ jc_of jc_LightSequencer v ;; Ok (GI_LightSequencer x) else
      if (k =? "Primitive")%string then x <~ jc_of jc_Primitive v ;; Ok (GI_Primitive x) else
      if (k =? "Flasher")%string then x <~ jc_of jc_Flasher v ;; Ok (GI_Flasher x) else
      if (k =? "Rubber")%string then x <~ jc_of jc_Rubber v ;; Ok (GI_Rubber x) else
      if (k =? "HitTarget")%string then x <~ jc_of jc_HitTarget v ;; Ok (GI_HitTarget x) else
      if (k =? "Ball")%string then x <~ jc_of jc_Ball v ;; Ok (GI_Ball x) else
      if (k =? "PartGroup")%string then x <~ jc_of jc_PartGroup v ;; Ok (GI_PartGroup x) else
      if (k =? "Generic")%string then '(t, g) <~ jc_of (jc_pair jc_u32 jc_Generic) v ;; Ok (GI_Generic t g) else Err
  | _ => Err
  end.

(** expanded/gameitems.rs:18-33 [GameItemInfoJson] *)
Record GameItemInfo : Type := mkGameItemInfo {
  gi_file_name : rstring; gi_is_locked : option bool; gi_editor_layer : option u32; gi_editor_layer_name : option rstring;
  gi_editor_layer_visibility : option bool }.
Definition jc_GameItemInfo : jcodec GameItemInfo :=
  jc_record (fun x => object [put "file_name" jc_string (gi_file_name x); put_some "is_locked" jc_bool (gi_is_locked x);
      put_some "editor_layer" jc_u32 (gi_editor_layer x); put_some "editor_layer_name" jc_string (gi_editor_layer_name x);
      put_some "editor_layer_visibility" jc_bool (gi_editor_layer_visibility x)])
    (fun o =>
      file_name <~ get o ["file_name"%string] jc_string ;; is_locked <~ get o ["is_locked"%string] (jc_option jc_bool) ;;
      editor_layer <~ get o ["editor_layer"%string] (jc_option jc_u32) ;;
      editor_layer_name <~ get o ["editor_layer_name"%string] (jc_option jc_string) ;;
      editor_layer_visibility <~ get o ["editor_layer_visibility"%string] (jc_option jc_bool) ;;
      Ok (mkGameItemInfo file_name is_locked editor_layer editor_layer_name editor_layer_visibility)).
(** expanded/gameitems.rs:80-86: what the index says about an item *)
Definition GameItem_info (file_name : rstring) (i : GameItem) : GameItemInfo :=
  mkGameItemInfo file_name (GI_is_locked i) (GI_editor_layer i) (GI_editor_layer_name i) (GI_editor_layer_visibility i).
(** expanded/gameitems.rs:194-199: the item read from its file and the index *)
Definition restore_item (info : GameItemInfo) (i : GameItem) : GameItem :=
  GI_set_editor_layer_visibility (gi_editor_layer_visibility info) (GI_set_editor_layer_name (gi_editor_layer_name info)
    (GI_set_editor_layer (gi_editor_layer info) (GI_set_locked (gi_is_locked info) i))).
Definition read_item_json (info item : json) : res GameItem :=
  i <~ jc_of jc_GameItemInfo info ;; x <~ GameItem_of_json item ;; Ok (restore_item i x).
End GameItems.

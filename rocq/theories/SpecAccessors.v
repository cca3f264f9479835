(** What an item reports about itself, in terms of the JSON form of the item. *)
From Verif Require Import Base Text GameItem Json JsonItems JsonGameItem SpecGltf.

Section Accessors.
Context {L : json_lib}.

(** The JSON form of an item is an object with one entry: its kind, with the fields of the item, or the number of the type
    and the fields of an item of unknown type *)
Definition item_kind (i : GameItem) : option string := match GameItem_to_json i with Jobj [(kind, _)] => Some kind | _ => None end.
Definition item_fields (i : GameItem) : list (string * json) :=
  match GameItem_to_json i with Jobj [(_, Jobj fields)] => fields | Jobj [(_, Jarr [_; Jobj fields])] => fields | _ => [] end.
Definition type_number (i : GameItem) : option Z :=
  match GameItem_to_json i with Jobj [(_, Jarr [Jnum (NInt n); _])] => Some n | _ => None end.
Definition item_field (key : string) (i : GameItem) : option json := SpecGltf.lookup key (item_fields i).
(** The text in a field: nothing if there is no such field, or its value is null or the empty text *)
Definition text_in (key : string) (i : GameItem) : list rstring :=
  match item_field key i with Some (Jstr (c :: s)) => [c :: s] | _ => [] end.
Definition texts_in (keys : list string) (i : GameItem) : list rstring := flat_map (fun key => text_in key i) keys.
Definition optional_text_in (key : string) (i : GameItem) : option rstring := match item_field key i with Some (Jstr s) => Some s | _ => None end.
Definition bool_in (key : string) (i : GameItem) : option bool := match item_field key i with Some (Jbool b) => Some b | _ => None end.

(** The fields with the name of a texture, and those with the name of a material *)
Definition texture_fields : list string :=
  ["image"; "side_image"; "image_decal"; "image_a"; "image_b"; "image_src_link"; "normal_map"; "light_map"]%string.
Definition material_fields : list string :=
  ["cap_material"; "base_material"; "ring_material"; "socket_material"; "material"; "rubber_material"; "top_material"; "side_material";
   "slingshot_material"]%string.

(** Whether an item is visible: what its field says, whichever of the two names it has; a wall has one for its top and one for its side *)
Definition visible_in (i : GameItem) : option bool :=
  match bool_in "is_visible" i, bool_in "visible" i, bool_in "is_top_bottom_visible" i, bool_in "is_side_visible" i with
  | Some b, None, None, None => Some b
  | None, Some b, None, None => Some b
  | None, None, Some top, Some side => Some (orb top side)
  | _, _, _, _ => None
  end.
End Accessors.

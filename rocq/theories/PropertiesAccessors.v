(** What an item reports about itself agrees with its JSON form. *)
From Verif Require Import Base Text Biff Common Enums ItemWall ItemFlipper ItemTimer ItemPlunger ItemTextBox ItemBumper ItemTrigger ItemLight ItemKicker ItemDecal ItemGate ItemSpinner ItemRamp ItemReel ItemLightSequencer ItemPrimitive ItemFlasher ItemRubber ItemHitTarget ItemBall ItemPartGroup GameItem Json JsonItems JsonGameItem SpecGltf SpecAccessors.
Import ListNotations.

Section Proofs.
Context {L : json_lib}.

Fixpoint first_of (key : string) (fs : list (string * option json)) : option json :=
  match fs with
  | [] => None
  | (k, o) :: fs' => if String.eqb k key then match o with Some j => Some j | None => first_of key fs' end else first_of key fs'
  end.
Lemma lookup_present key fs : SpecGltf.lookup key (present fs) = first_of key fs.
Proof.
  induction fs as [|[k [j|]] fs IH]; cbn [present flat_map app fst snd]; [reflexivity| |].
  - cbn [SpecGltf.lookup first_of]. destruct (String.eqb k key); [reflexivity|exact IH].
  - cbn [SpecGltf.lookup first_of]. destruct (String.eqb k key); exact IH.
Qed.
Lemma item_field_object key i kind fs : GameItem_to_json i = Jobj [(kind, object fs)] -> item_field key i = first_of key fs.
Proof. unfold item_field, item_fields. intros ->. unfold object. apply lookup_present. Qed.
Lemma item_field_generic key i kind t fs : GameItem_to_json i = Jobj [(kind, Jarr [t; object fs])] -> item_field key i = first_of key fs.
Proof. unfold item_field, item_fields. intros ->. unfold object. apply lookup_present. Qed.
Definition filled (o : option json) : list rstring := match o with Some (Jstr (c :: s)) => [c :: s] | _ => [] end.
Lemma texts_object keys i kind fs : GameItem_to_json i = Jobj [(kind, object fs)] -> texts_in keys i = flat_map (fun key => filled (first_of key fs)) keys.
Proof. intros H. unfold texts_in. induction keys as [|k keys IH]; [reflexivity|]. cbn [flat_map]. rewrite IH. unfold text_in. rewrite (item_field_object k i kind fs H). reflexivity. Qed.
Lemma texts_generic keys i kind t fs : GameItem_to_json i = Jobj [(kind, Jarr [t; object fs])] -> texts_in keys i = flat_map (fun key => filled (first_of key fs)) keys.
Proof. intros H. unfold texts_in. induction keys as [|k keys IH]; [reflexivity|]. cbn [flat_map]. rewrite IH. unfold text_in. rewrite (item_field_generic k i kind t fs H). reflexivity. Qed.
Lemma nonempty_text s : nonempty s = match s with c :: s' => [c :: s'] | [] => [] end.
Proof. destruct s; reflexivity. Qed.
End Proofs.
Ltac look := repeat first [erewrite item_field_object by reflexivity|erewrite item_field_generic by reflexivity]; unfold put_TimerData;
  lazy beta iota delta [first_of put put_some app String.eqb Ascii.eqb Bool.eqb jc_to jc_string jc_bool jc_option option_map put_TimerData].

Ltac looks := first [erewrite texts_object by reflexivity|erewrite texts_generic by reflexivity];
  lazy beta iota delta [texture_fields material_fields flat_map filled first_of put put_some app String.eqb Ascii.eqb Bool.eqb jc_to jc_string jc_bool jc_option option_map put_TimerData];
  fold (@app rstring).

(** ** C61: the names and flags that an item reports are those of its JSON form. *)

(** [name]: the field of that name, which every item has *)
Theorem C61_name (L : json_lib) (i : GameItem) : item_field "name" i = Some (Jstr (GI_name i)).
Proof. destruct i as [v|v|v|v|v|v|v|v|v|v|v|v|v|v|v|v|v|v|v|v|v|t g]; look; reflexivity. Qed.
Print Assumptions C61_name.

(** [type_name]: the kind, followed by the number of the type for an item of unknown type *)
Theorem C61_type_name (L : json_lib) (i : GameItem) :
  exists kind, item_kind i = Some kind /\
    GI_type_name i = match type_number i with Some n => lit kind ++ lit "_" ++ dec n | None => lit kind end.
Proof. destruct i as [v|v|v|v|v|v|v|v|v|v|v|v|v|v|v|v|v|v|v|v|v|t g]; eexists; (split; [reflexivity|]); reflexivity. Qed.
Print Assumptions C61_type_name.

(** [part_group_name] *)
Theorem C61_part_group (L : json_lib) (i : GameItem) : GI_part_group_name i = optional_text_in "part_group_name" i.
Proof.
  unfold optional_text_in.
  destruct i as [v|v|v|v|v|v|v|v|v|v|v|v|v|v|v|v|v|v|v|v|v|t g]; look; cbn [GI_part_group_name];
    match goal with |- None = _ => reflexivity | |- ?o = _ => destruct o; reflexivity end.
Qed.
Print Assumptions C61_part_group.

(** [images]: the textures named in the fields of the item, all of them and no other *)
Theorem C61_images (L : json_lib) (i : GameItem) : GI_images i = texts_in texture_fields i.
Proof.
  destruct i as [v|v|v|v|v|v|v|v|v|v|v|v|v|v|v|v|v|v|v|v|v|t g]; looks; cbn [GI_images opt_nonempty app];
    rewrite ?nonempty_text, ?app_nil_r; try reflexivity.
  - destruct (Flipper_image v) as [[|? ?]|]; reflexivity.
  - destruct (Primitive_image v), (Primitive_normal_map v) as [[|? ?]|], (Primitive_light_map v) as [[|? ?]|]; reflexivity.
  - destruct (Flasher_image_a v), (Flasher_image_b v), (Flasher_image_src_link v) as [[|? ?]|], (Flasher_light_map v) as [[|? ?]|]; reflexivity.
Qed.
Print Assumptions C61_images.

(** [materials] *)
Theorem C61_materials (L : json_lib) (i : GameItem) : GI_materials i = texts_in material_fields i.
Proof.
  destruct i as [v|v|v|v|v|v|v|v|v|v|v|v|v|v|v|v|v|v|v|v|v|t g]; looks; cbn [GI_materials opt_nonempty app];
    rewrite ?nonempty_text, ?app_nil_r; try reflexivity.
  destruct (Bumper_cap_material v), (Bumper_base_material v), (Bumper_ring_material v) as [[|? ?]|], (Bumper_socket_material v); reflexivity.
Qed.
Print Assumptions C61_materials.

(** [physics_material] *)
Theorem C61_physics_material (L : json_lib) (i : GameItem) :
  match GI_physics_material i with Some s => [s] | None => [] end = text_in "physics_material" i.
Proof.
  unfold text_in.
  destruct i as [v|v|v|v|v|v|v|v|v|v|v|v|v|v|v|v|v|v|v|v|v|t g]; look; unfold GI_physics_material; try reflexivity;
    match goal with |- context [match ?o with Some _ => _ | None => None end] => destruct o as [[|? ?]|]; reflexivity end.
Qed.
Print Assumptions C61_physics_material.

(** [is_visible] *)
Theorem C61_visible (L : json_lib) (i : GameItem) : GI_is_visible i = visible_in i.
Proof.
  unfold visible_in, bool_in.
  destruct i as [v|v|v|v|v|v|v|v|v|v|v|v|v|v|v|v|v|v|v|v|v|t g]; look; try reflexivity.
  cbn [GI_is_visible]. destruct (Light_visible v); reflexivity.
Qed.
Print Assumptions C61_visible.

(** A wall with a texture on its side only, shown on its side only, in a group; an item of unknown type *)
Definition example_wall : GameItem :=
  GI_Wall (set_Wall_part_group_name (Some (lit "Playfield")) (set_Wall_physics_material (Some (lit "Rubber")) (set_Wall_is_top_bottom_visible false
    (set_Wall_is_side_visible true (set_Wall_side_material (lit "Wood") (set_Wall_top_material [] (set_Wall_image [] (set_Wall_side_image (lit "bricks") Wall_default)))))))).
Example C61_wall :
  GI_images example_wall = [lit "bricks"] /\ GI_materials example_wall = lit "Wood" :: nonempty (Wall_slingshot_material Wall_default) /\
  GI_physics_material example_wall = Some (lit "Rubber") /\ GI_is_visible example_wall = Some true /\
  GI_part_group_name example_wall = Some (lit "Playfield") /\ GI_type_name example_wall = lit "Wall" /\
  GI_type_name (GI_Generic (Z_to_w32 99) (mkGeneric (lit "new") [])) = lit "Generic_99".
Proof. repeat split; vm_compute; reflexivity. Qed.

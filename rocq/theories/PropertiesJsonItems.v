(** C50 and C51: game items as JSON. *)
From Coq Require Import Permutation.
From Verif Require Import Base Text Biff Common Enums ItemWall ItemBumper ItemPrimitive ItemFlipper GameItem JsonFloat SpecJson JsonFloatFacts Json
  SpecJsonRecords JsonItems SpecJsonItems JsonGameItem SpecJsonGameItem JsonFacts JsonItemsFacts JsonGameItemFacts JsonItemEdits.

(** A JSON library as assumed below *)
Definition example_lib : json_lib := mkJsonLib f32 (fun x => x) Some (fun _ => f32_0) plain_lower (fun l => rev l).
Example C50_oracles : lib_ok example_lib.
Proof.
  split; [intros x _; reflexivity|]. split; [intros s _; reflexivity|]. intros l. apply Permutation_sym, Permutation_rev.
Qed.

(** C50: an item read from its JSON file and its entry in the index is the item that was written, apart from the mesh of a
    primitive. *)
Theorem C50_item_restored : forall (L : json_lib), lib_ok L -> forall file_name i, GI_finite i ->
  read_item_json (jc_to jc_GameItemInfo (GameItem_info file_name i)) (GameItem_to_json i) = Ok (GI_without_mesh i).
Proof. intros L lib file_name i H. exact (item_restored lib file_name i H). Qed.
Print Assumptions C50_item_restored.
Theorem C50_entry_restored : forall (L : json_lib) x, jc_of jc_GameItemInfo (jc_to jc_GameItemInfo x) = Ok x.
Proof. intros L x. exact (restores_GameItemInfo x). Qed.
Print Assumptions C50_entry_restored.
(** Two items with the same JSON and the same entry in the index are the same item, meshes apart. *)
Theorem C50_nothing_lost : forall (L : json_lib), lib_ok L -> forall name i j, GI_finite i -> GI_finite j ->
  GameItem_to_json i = GameItem_to_json j -> jc_to jc_GameItemInfo (GameItem_info name i) = jc_to jc_GameItemInfo (GameItem_info name j) ->
  GI_without_mesh i = GI_without_mesh j.
Proof.
  intros L lib name i j Hi Hj E F. pose proof (item_restored lib name i Hi) as A. pose proof (item_restored lib name j Hj) as B.
  rewrite E, F in A. rewrite A in B. congruence.
Qed.
Print Assumptions C50_nothing_lost.
Definition example_flipper : GameItem :=
  GI_Flipper (set_Flipper_name (lit "Left" ++ [0x20AC%N]) (set_Flipper_is_locked true (set_Flipper_editor_layer_name (Some (lit "Layer")) Flipper_default))).
Example C50_example : GI_finite example_flipper /\ GI_without_mesh example_flipper = example_flipper /\
  GI_finite (GI_Primitive Primitive_default) /\ GI_finite (GI_Wall Wall_default) /\ GI_finite (GI_Bumper Bumper_default) /\
  GI_finite (GI_Generic (Z_to_w32 99) (mkGeneric (lit "x") [("ABCD"%string, [x01; x02])])).
Proof.
  Ltac holds :=
    repeat lazymatch goal with
      | |- _ /\ _ => split
      | |- finite _ => vm_compute; reflexivity
      | |- for_some _ _ => first [exact I | vm_compute; reflexivity]
      | |- Forall _ _ => apply Forall_nil
      | |- _ => red
      end.
  split; [|split; [reflexivity|split; [|split; [|split; [|]]]]].
  - holds.
  - holds.
  - holds.
  - holds.
  - constructor; [|constructor]. exists (lit "ABCD"). split; reflexivity.
Qed.

(** Without finiteness the property fails: a bumper whose radius is not a number is written but cannot be read, and an optional
    float that is not a number is lost without notice. *)
Definition a_nan : f32 := W32 x00 x00 xc0 x7f.
Theorem C50_nan_unreadable_refuted : exists i, forall (L : json_lib) info, exists j, GameItem_to_json i = j /\ forall x, read_item_json info j <> Ok x.
Proof.
  exists (GI_Bumper (set_Bumper_radius a_nan Bumper_default)). intros L info. eexists. split; [reflexivity|]. intros x H.
  unfold read_item_json in H. destruct (jc_of jc_GameItemInfo info) as [i|]; [|discriminate H]. cbn [rbind] in H.
  remember (set_Bumper_radius a_nan Bumper_default) as v eqn:Ev. unfold GameItem_to_json, variant in H.
  change (GameItem_of_json (Jobj [("Bumper"%string, jc_to jc_Bumper v)])) with (x <~ jc_of jc_Bumper (jc_to jc_Bumper v) ;; Ok (GI_Bumper x)) in H.
  assert (R : forall y, jc_of jc_Bumper (jc_to jc_Bumper v) <> Ok y).
  { intros y. cbn [jc_Bumper jc_record jc_of jc_to fields_of object rbind]. intros E.
    destruct (get _ ["center"%string] _) as [c|]; [|discriminate E]. cbn [rbind] in E. subst v. cbn in E. discriminate E. }
  destruct (jc_of jc_Bumper (jc_to jc_Bumper v)) as [y|] eqn:E; [exact (R y eq_refl)|discriminate H].
Qed.
Print Assumptions C50_nan_unreadable_refuted.
Theorem C50_nan_lost_refuted : exists i j, i <> j /\ forall (L : json_lib), GameItem_to_json j = GameItem_to_json i /\
  (forall name, GameItem_info name i = GameItem_info name j).
Proof.
  exists (GI_Wall (set_Wall_disable_lighting_top_old (Some a_nan) Wall_default)), (GI_Wall (set_Wall_disable_lighting_top_old None Wall_default)).
  split; [discriminate|]. intros L. split; [reflexivity|intros name; reflexivity].
Qed.
Print Assumptions C50_nan_lost_refuted.

(** C51: the order of the keys does not matter, and neither do further keys. *)
Theorem C51_order_and_extra_keys : forall (L : json_lib) k o o' i, k <> "Generic"%string -> edited_by_hand item_keys o o' ->
  GameItem_of_json (Jobj [(k, Jobj o)]) = Ok i -> GameItem_of_json (Jobj [(k, Jobj o')]) = Ok i.
Proof. exact (fun L => @item_edited L). Qed.
Print Assumptions C51_order_and_extra_keys.
(** C51: keys used by older versions *)
Theorem C51_old_keys : forall (L : json_lib) o,
  GameItem_of_json (Jobj [("Flipper"%string, Jobj (rename_key "return" "return_" o))]) = GameItem_of_json (Jobj [("Flipper"%string, Jobj o)]) /\
  GameItem_of_json (Jobj [("Light"%string, Jobj (rename_key "image" "off_image" o))]) = GameItem_of_json (Jobj [("Light"%string, Jobj o)]).
Proof.
  intros L o. split.
  - change (x <~ jc_of jc_Flipper (Jobj (rename_key "return" "return_" o)) ;; Ok (GI_Flipper x) = x <~ jc_of jc_Flipper (Jobj o) ;; Ok (GI_Flipper x)).
    rewrite flipper_old. reflexivity.
  - change (x <~ jc_of jc_Light (Jobj (rename_key "image" "off_image" o)) ;; Ok (GI_Light x) = x <~ jc_of jc_Light (Jobj o) ;; Ok (GI_Light x)).
    rewrite light_old. reflexivity.
Qed.
Print Assumptions C51_old_keys.
Example C51_example : exists o o' : list (string * @json example_lib), o <> o' /\ edited_by_hand item_keys o o' /\
  exists i, GameItem_of_json (Jobj [("Timer"%string, Jobj o)]) = Ok i.
Proof.
  exists (present [put "center" jc_Vertex2D (mkVertex2D f32_0 f32_0); put "is_timer_enabled" jc_bool true; put "timer_interval" jc_i32 (Z_to_w32 100);
    put "name" jc_string (lit "T"); put "backglass" jc_bool false]),
    (present [put "colour" jc_bool true; put "center" jc_Vertex2D (mkVertex2D f32_0 f32_0); put "is_timer_enabled" jc_bool true;
      put "timer_interval" jc_i32 (Z_to_w32 100); put "name" jc_string (lit "T"); put "backglass" jc_bool false]).
  split; [discriminate|]. split.
  - exists (present [put "colour" jc_bool true]). split; [apply (Permutation_app_comm (present [put "colour" jc_bool true]))|].
    constructor; [|constructor]. intros H. assert (K : existsb (String.eqb "colour") item_keys = false) by (vm_compute; reflexivity).
    rewrite (proj2 (existsb_exists _ _)) in K; [discriminate K|]. exists "colour"%string. split; [exact H|reflexivity].
  - match goal with |- exists i, ?r = Ok i => assert (K : match r with Ok _ => true | _ => false end = true) by (vm_compute; reflexivity);
      destruct r as [i|]; [exists i; reflexivity|discriminate K] end.
Qed.

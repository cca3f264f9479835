From Verif Require Import Base BaseFacts Text TextFacts Biff Common Enums EnumsFacts ItemWall ItemFlipper ItemTimer ItemPlunger ItemTextBox ItemBumper ItemTrigger ItemLight ItemKicker ItemDecal ItemGate ItemSpinner ItemRamp ItemReel ItemLightSequencer ItemPrimitive ItemFlasher ItemRubber ItemHitTarget ItemBall ItemPartGroup GameItem JsonFloat SpecJson Json SpecJsonRecords JsonFacts
  JsonItems SpecJsonItems JsonItemsFacts JsonGameItem SpecJsonGameItem.

Section Facts.
Context {L : json_lib} (lib : lib_ok L).
Lemma restores_tag t : text_tag t -> restores jc_tag t.
Proof.
  intros (s & I & E). unfold restores. cbn [jc_tag jc_to jc_of]. rewrite E, utf8_decode_encode by exact I.
  rewrite <- E, string_of_list_byte_of_string. reflexivity.
Qed.
Lemma restores_Generic g : Forall (fun f => text_tag (fst f)) (Generic_fields g) -> restores jc_Generic g.
Proof.
  intros H. destruct g as [n fs]. cbn [Generic_fields] in H.
  record lib ltac:(fun _ => lazymatch goal with |- restores jc_tag _ => apply restores_tag; assumption end). reflexivity.
Qed.
Lemma restores_GameItemInfo x : restores jc_GameItemInfo x.
Proof. destruct x. record lib no_more. reflexivity. Qed.
Lemma item_restored name i : GI_finite i ->
  read_item_json (jc_to jc_GameItemInfo (GameItem_info name i)) (GameItem_to_json i) = Ok (GI_without_mesh i).
Proof.
  intros H. unfold read_item_json. rewrite (restores_GameItemInfo (GameItem_info name i)). cbn [rbind].
  destruct i as [v|v|v|v|v|v|v|v|v|v|v|v|v|v|v|v|v|v|v|v|v|t g]; cbn [GI_finite GameItem_to_json] in *; unfold variant.
  - change (GameItem_of_json (Jobj [("Wall"%string, jc_to jc_Wall v)])) with (x <~ jc_of jc_Wall (jc_to jc_Wall v) ;; Ok (GI_Wall x)).
    rewrite (json_Wall lib v H). cbn [rbind]. destruct v; reflexivity.
  - change (GameItem_of_json (Jobj [("Flipper"%string, jc_to jc_Flipper v)])) with (x <~ jc_of jc_Flipper (jc_to jc_Flipper v) ;; Ok (GI_Flipper x)).
    rewrite (json_Flipper lib v H). cbn [rbind]. destruct v; reflexivity.
  - change (GameItem_of_json (Jobj [("Timer"%string, jc_to jc_Timer v)])) with (x <~ jc_of jc_Timer (jc_to jc_Timer v) ;; Ok (GI_Timer x)).
    rewrite (json_Timer lib v H). cbn [rbind]. destruct v; reflexivity.
  - change (GameItem_of_json (Jobj [("Plunger"%string, jc_to jc_Plunger v)])) with (x <~ jc_of jc_Plunger (jc_to jc_Plunger v) ;; Ok (GI_Plunger x)).
    rewrite (json_Plunger lib v H). cbn [rbind]. destruct v; reflexivity.
  - change (GameItem_of_json (Jobj [("TextBox"%string, jc_to jc_TextBox v)])) with (x <~ jc_of jc_TextBox (jc_to jc_TextBox v) ;; Ok (GI_TextBox x)).
    rewrite (json_TextBox lib v H). cbn [rbind]. destruct v; reflexivity.
  - change (GameItem_of_json (Jobj [("Bumper"%string, jc_to jc_Bumper v)])) with (x <~ jc_of jc_Bumper (jc_to jc_Bumper v) ;; Ok (GI_Bumper x)).
    rewrite (json_Bumper lib v H). cbn [rbind]. destruct v; reflexivity.
  - change (GameItem_of_json (Jobj [("Trigger"%string, jc_to jc_Trigger v)])) with (x <~ jc_of jc_Trigger (jc_to jc_Trigger v) ;; Ok (GI_Trigger x)).
    rewrite (json_Trigger lib v H). cbn [rbind]. destruct v; reflexivity.
  - change (GameItem_of_json (Jobj [("Light"%string, jc_to jc_Light v)])) with (x <~ jc_of jc_Light (jc_to jc_Light v) ;; Ok (GI_Light x)).
    rewrite (json_Light lib v H). cbn [rbind]. destruct v; reflexivity.
  - change (GameItem_of_json (Jobj [("Kicker"%string, jc_to jc_Kicker v)])) with (x <~ jc_of jc_Kicker (jc_to jc_Kicker v) ;; Ok (GI_Kicker x)).
    rewrite (json_Kicker lib v H). cbn [rbind]. destruct v; reflexivity.
  - change (GameItem_of_json (Jobj [("Decal"%string, jc_to jc_Decal v)])) with (x <~ jc_of jc_Decal (jc_to jc_Decal v) ;; Ok (GI_Decal x)).
    rewrite (json_Decal lib v H). cbn [rbind]. destruct v; reflexivity.
  - change (GameItem_of_json (Jobj [("Gate"%string, jc_to jc_Gate v)])) with (x <~ jc_of jc_Gate (jc_to jc_Gate v) ;; Ok (GI_Gate x)).
    rewrite (json_Gate lib v H). cbn [rbind]. destruct v; reflexivity.
  - change (GameItem_of_json (Jobj [("Spinner"%string, jc_to jc_Spinner v)])) with (x <~ jc_of jc_Spinner (jc_to jc_Spinner v) ;; Ok (GI_Spinner x)).
    rewrite (json_Spinner lib v H). cbn [rbind]. destruct v; reflexivity.
  - change (GameItem_of_json (Jobj [("Ramp"%string, jc_to jc_Ramp v)])) with (x <~ jc_of jc_Ramp (jc_to jc_Ramp v) ;; Ok (GI_Ramp x)).
    rewrite (json_Ramp lib v H). cbn [rbind]. destruct v; reflexivity.
  - change (GameItem_of_json (Jobj [("Reel"%string, jc_to jc_Reel v)])) with (x <~ jc_of jc_Reel (jc_to jc_Reel v) ;; Ok (GI_Reel x)).
    rewrite (json_Reel lib v H). cbn [rbind]. destruct v; reflexivity.
  - change (GameItem_of_json (Jobj [("LightSequencer"%string, jc_to jc_LightSequencer v)])) with (x <~ jc_of jc_LightSequencer (jc_to jc_LightSequencer v) ;; Ok (GI_LightSequencer x)).
    rewrite (json_LightSequencer lib v H). cbn [rbind]. destruct v; reflexivity.
  - change (GameItem_of_json (Jobj [("Primitive"%string, jc_to jc_Primitive v)])) with (x <~ jc_of jc_Primitive (jc_to jc_Primitive v) ;; Ok (GI_Primitive x)).
    rewrite (json_Primitive lib v H). cbn [rbind]. destruct v; reflexivity.
  - change (GameItem_of_json (Jobj [("Flasher"%string, jc_to jc_Flasher v)])) with (x <~ jc_of jc_Flasher (jc_to jc_Flasher v) ;; Ok (GI_Flasher x)).
    rewrite (json_Flasher lib v H). cbn [rbind]. destruct v; reflexivity.
  - change (GameItem_of_json (Jobj [("Rubber"%string, jc_to jc_Rubber v)])) with (x <~ jc_of jc_Rubber (jc_to jc_Rubber v) ;; Ok (GI_Rubber x)).
    rewrite (json_Rubber lib v H). cbn [rbind]. destruct v; reflexivity.
  - change (GameItem_of_json (Jobj [("HitTarget"%string, jc_to jc_HitTarget v)])) with (x <~ jc_of jc_HitTarget (jc_to jc_HitTarget v) ;; Ok (GI_HitTarget x)).
    rewrite (json_HitTarget lib v H). cbn [rbind]. destruct v; reflexivity.
  - change (GameItem_of_json (Jobj [("Ball"%string, jc_to jc_Ball v)])) with (x <~ jc_of jc_Ball (jc_to jc_Ball v) ;; Ok (GI_Ball x)).
    rewrite (json_Ball lib v H). cbn [rbind]. destruct v; reflexivity.
  - change (GameItem_of_json (Jobj [("PartGroup"%string, jc_to jc_PartGroup v)])) with (x <~ jc_of jc_PartGroup (jc_to jc_PartGroup v) ;; Ok (GI_PartGroup x)).
    rewrite (json_PartGroup lib v H). cbn [rbind]. destruct v; reflexivity.
  - change (GameItem_of_json (Jobj [("Generic"%string, jc_to (jc_pair jc_u32 jc_Generic) (t, g))]))
      with ('(t, g) <~ jc_of (jc_pair jc_u32 jc_Generic) (jc_to (jc_pair jc_u32 jc_Generic) (t, g)) ;; Ok (GI_Generic t g)).
    rewrite (restores_pair jc_u32 jc_Generic (t, g) (restores_u32 t) (restores_Generic g H)). reflexivity.
Qed.
End Facts.

From Coq Require Import Permutation.
From Verif Require Import Base BaseFacts Text TextFacts Biff Common Enums GameItem Json SpecJsonRecords JsonFacts JsonItems SpecJsonItems JsonItemsFacts JsonGameItem SpecJsonGameItem.

Section Edits.
Context {L : json_lib}.
Lemma item_edited k o o' i : k <> "Generic"%string -> edited_by_hand item_keys o o' ->
  GameItem_of_json (Jobj [(k, Jobj o)]) = Ok i -> GameItem_of_json (Jobj [(k, Jobj o')]) = Ok i.
Proof.
  intros G E H. rewrite <- H. clear H. unfold GameItem_of_json.
  repeat lazymatch goal with
    | |- (if (k =? ?n)%string then _ <~ jc_of ?c _ ;; _ else _) = _ =>
        destruct (k =? n)%string;
        [first [rewrite (loose_Wall _ _ E) | rewrite (loose_Flipper _ _ E) | rewrite (loose_Timer _ _ E) | rewrite (loose_Plunger _ _ E)
          | rewrite (loose_TextBox _ _ E) | rewrite (loose_Bumper _ _ E) | rewrite (loose_Trigger _ _ E) | rewrite (loose_Light _ _ E)
          | rewrite (loose_Kicker _ _ E) | rewrite (loose_Decal _ _ E) | rewrite (loose_Gate _ _ E) | rewrite (loose_Spinner _ _ E)
          | rewrite (loose_Ramp _ _ E) | rewrite (loose_Reel _ _ E) | rewrite (loose_LightSequencer _ _ E) | rewrite (loose_Primitive _ _ E)
          | rewrite (loose_Flasher _ _ E) | rewrite (loose_Rubber _ _ E) | rewrite (loose_HitTarget _ _ E) | rewrite (loose_Ball _ _ E)
          | rewrite (loose_PartGroup _ _ E)]; reflexivity|]
    end.
  destruct (k =? "Generic")%string eqn:K; [apply String.eqb_eq in K; contradiction|reflexivity].
Qed.

Lemma get_renamed {A} a b o names (c : jcodec A) :
  existsb (String.eqb a) names = existsb (String.eqb b) names -> get (rename_key a b o) names c = get o names c.
Proof.
  intros H. unfold get. assert (F : filter (named names) (rename_key a b o) = rename_key a b (filter (named names) o)).
  { induction o as [|[k v] o IH]; [reflexivity|]. unfold rename_key in *. cbn [map filter fst snd].
    change (named names (k, v)) with (existsb (String.eqb k) names).
    destruct (k =? a)%string eqn:E.
    - apply String.eqb_eq in E. subst k. change (named names (b, v)) with (existsb (String.eqb b) names). rewrite <- H, IH.
      destruct (existsb (String.eqb a) names); [|reflexivity]. cbn [map fst snd]. rewrite String.eqb_refl. reflexivity.
    - change (named names (k, v)) with (existsb (String.eqb k) names). rewrite IH.
      destruct (existsb (String.eqb k) names); [|reflexivity]. cbn [map fst snd]. rewrite E. reflexivity. }
  rewrite F. destruct (filter (named names) o) as [|[k v] [|[k2 v2] l]]; [reflexivity| |]; unfold rename_key; cbn [map fst snd].
  - destruct (k =? a)%string; reflexivity.
  - destruct (k =? a)%string, (k2 =? a)%string; reflexivity.
Qed.
End Edits.
Ltac renamed :=
  lazymatch goal with |- jc_of ?c _ = _ => let c' := eval red in c in change c with c' end;
  cbn [jc_record jc_of fields_of rbind]; unfold get_TimerData;
  repeat lazymatch goal with
    | |- rbind (rbind (get (rename_key ?a ?b ?o) ?n ?c) _) _ = _ => rewrite (get_renamed a b o n c eq_refl); destruct (get o n c); cbn [rbind]; [|reflexivity]
    | |- rbind (get (rename_key ?a ?b ?o) ?n ?c) _ = _ => rewrite (get_renamed a b o n c eq_refl); destruct (get o n c); cbn [rbind]; [|reflexivity]
    end; reflexivity.
Section Old.
Context {L : json_lib}.
Lemma flipper_old o : jc_of jc_Flipper (Jobj (rename_key "return" "return_" o)) = jc_of jc_Flipper (Jobj o).
Proof. renamed. Qed.
Lemma light_old o : jc_of jc_Light (Jobj (rename_key "image" "off_image" o)) = jc_of jc_Light (Jobj o).
Proof. renamed. Qed.
End Old.

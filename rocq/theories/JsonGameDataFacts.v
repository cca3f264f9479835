(** Generated by tools/gen_json.py. *)
From Verif Require Import BaseFacts Base Text Biff Common Enums GDBounds GDDesktop GDCabinet GDPhysics GDScene Structs GameData EnumsFacts JsonFloat SpecJson Json SpecJsonRecords JsonFacts JsonItems
  JsonItemsFacts JsonGameData SpecJsonGameData.

Section Facts.
Context {L : json_lib} (lib : lib_ok L).
Ltac game_more lib := fun _ =>
  lazymatch goal with
  | |- restores (jc_array _ jc_Color) _ => apply restores_array; [assumption | apply Forall_forall; intros; apply restores_Color]
  | _ => let t := item_more lib in t tt
  end.
Lemma json_GameData x : GameData_finite x -> jc_of jc_GameData (jc_to jc_GameData x) = Ok (GameData_json_part x).
Proof.
  let H := fresh in intros H; unfold GameData_finite in H; repeat match goal with K : _ /\ _ |- _ => destruct K end.
  record lib ltac:(game_more lib).
  destruct x as [[] [] [] [] [] [] ? []]; reflexivity.
Qed.
Lemma loose_GameData : loose game_data_keys (jc_GameData (L := L)). Proof. loose. Qed.
End Facts.

(** Generated by tools/gen_structs.py: what [GDBounds_write] produces and what [GDBounds_arms] makes of it. *)
From Verif Require Import Base Text Biff Quantize Common Enums ItemBase GDBounds.
From Verif Require Import BaseFacts TextFacts BiffFacts CommonFacts TermFacts QuantizeFacts EnumsFacts ItemBaseFacts StructBaseFacts.

(** The records that are written, in order. *)
Definition GDBounds_recs (v : GDBounds) : list rec :=
  R "LEFT" (w32_bytes (GDBounds_left v)) ::
  R "TOPX" (w32_bytes (GDBounds_top v)) ::
  R "RGHT" (w32_bytes (GDBounds_right v)) ::
  R "BOTM" (w32_bytes (GDBounds_bottom v)) ::
  orec (GDBounds_camera_layout_mode v) (fun x => R "CLMO" (w32_bytes x)) ++
  [].
(** The values that can be stored: see the components. *)
Definition GDBounds_ok (v : GDBounds) : bool :=
  true.
Lemma GDBounds_steps v : GDBounds_ok v = true -> Steps (dispatch GDBounds_arms) GDBounds_default (GDBounds_recs v) v.
Proof.
  intros H. unfold GDBounds_ok in H. split_ok H. eapply Steps_eq.
  - unfold GDBounds_recs.
    srec. srec. srec. srec. sopt set_GDBounds_camera_layout_mode GDBounds_camera_layout_mode.
    constructor.
  - destruct v. vm_compute. reflexivity.
Qed.
Lemma GDBounds_wapp v : GDBounds_ok v = true -> wapp (GDBounds_write v) (enc (GDBounds_recs v)).
Proof.
  intros H. unfold GDBounds_ok in H. split_ok H. unfold GDBounds_write, GDBounds_recs. recs_norm.
  wrec. wrec. wrec. wrec. woptrec. apply wapp_wskip.
Qed.
Lemma GDBounds_term : Forall ArmTerm GDBounds_arms.
Proof.
  unfold GDBounds_arms, GDBounds_own_arms. item_term.
Qed.
Lemma GDBounds_yields : Forall (ArmYields (fun v => GDBounds_ok v = true)) GDBounds_arms.
Proof.
  unfold GDBounds_arms, GDBounds_own_arms.
  item_yields GDBounds_ok.
Qed.
Lemma GDBounds_tags v : forallb (fun r => tag_known GDBounds_arms (rec_tag r)) (GDBounds_recs v) = true.
Proof. unfold GDBounds_recs. tags_in. Qed.

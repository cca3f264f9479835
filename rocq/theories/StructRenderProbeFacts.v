(** Generated by tools/gen_structs.py: what [RenderProbe_write] produces and what [RenderProbe_read] makes of it. *)
From Verif Require Import Base Text Biff Quantize Common Enums ItemBase StructRenderProbe.
From Verif Require Import BaseFacts TextFacts BiffFacts CommonFacts TermFacts QuantizeFacts EnumsFacts ItemBaseFacts.

(** The records that are written, in order. *)
Definition RenderProbe_recs (v : RenderProbe) : list rec :=
  R "TYPE" (w32_bytes (RenderProbeType_to_u32 (RenderProbe_type_ v))) ::
  R "NAME" (string_bytes (RenderProbe_name v)) ::
  R "RBAS" (w32_bytes (RenderProbe_roughness v)) ::
  orec (RenderProbe_roughness_clear v) (fun x => R "RCLE" (w32_bytes x)) ++
  R "RPLA" (v4_bytes (RenderProbe_reflection_plane v)) ::
  R "RMOD" (w32_bytes (ReflectionMode_to_u32 (RenderProbe_reflection_mode v))) ::
  orec (RenderProbe_disable_light_reflection v) (fun x => R "RLMP" (bool_bytes x)) ++
  [].
(** The values that can be stored: see the components. *)
Definition RenderProbe_ok (v : RenderProbe) : bool :=
  str_ok (RenderProbe_name v).
Lemma RenderProbe_steps v : RenderProbe_ok v = true -> Steps (dispatch RenderProbe_arms) RenderProbe_init (RenderProbe_recs v) v.
Proof.
  intros H. unfold RenderProbe_ok in H. split_ok H. eapply Steps_eq.
  - unfold RenderProbe_recs.
    srec_enum RenderProbeType_roundtrip. srec. srec. sopt set_RenderProbe_roughness_clear RenderProbe_roughness_clear. srec. srec_enum ReflectionMode_roundtrip. sopt set_RenderProbe_disable_light_reflection RenderProbe_disable_light_reflection.
    constructor.
  - destruct v. vm_compute. reflexivity.
Qed.
Lemma RenderProbe_wapp v : RenderProbe_ok v = true -> wapp (RenderProbe_write v) (enc (RenderProbe_recs v ++ [endb])).
Proof.
  intros H. unfold RenderProbe_ok in H. split_ok H. unfold RenderProbe_write, RenderProbe_recs. recs_norm.
  wrec. wrec. wrec. woptrec. wrec. wrec. woptrec. apply wapp_close.
Qed.
Lemma RenderProbe_roundtrip v : RenderProbe_ok v = true ->
  exists b, run_writer (RenderProbe_write v) = Ok b /\ reads_as RenderProbe_read b v.
Proof. intros H. exact (item_roundtrip RenderProbe_write RenderProbe_arms RenderProbe_init RenderProbe_recs v (RenderProbe_wapp v H) ltac:(unfold RenderProbe_write; closes) (RenderProbe_steps v H)). Qed.
Lemma RenderProbe_term : Term RenderProbe_read.
Proof.
  apply Term_read_arms. unfold RenderProbe_arms, RenderProbe_own_arms. item_term.
Qed.
Lemma RenderProbe_yields : Yields RenderProbe_read (fun v => RenderProbe_ok v = true).
Proof.
  apply Yields_read_arms; [|reflexivity]. unfold RenderProbe_arms, RenderProbe_own_arms.
  item_yields RenderProbe_ok.
Qed.

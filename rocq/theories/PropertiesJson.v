(** C42: floats in JSON. *)
From Verif Require Import Base Text Image Sound ColorText SpecColor JsonFloat SpecJson BaseFacts SoundFacts ColorFacts JsonFloatFacts.

(** An example of oracles: numbers are the floats themselves, texts are lowered in ASCII only *)
Example C42_oracles : keeps_finite (num := f32) (fun x => x) Some /\ lowers_ascii plain_lower.
Proof. split; [intros x _; reflexivity|intros s _; reflexivity]. Qed.

(** C42: every float (finite, infinite, NaN of any kind) is restored from its JSON form with all its bits. *)
Theorem C42_round_trip : forall num (num_of : f32 -> num) num_as_f32 lower, keeps_finite num_of num_as_f32 -> lowers_ascii lower ->
  forall x, F32WithNanInf_from_json num num_as_f32 lower (F32WithNanInf_to_json num num_of x) = Ok x.
Proof. exact nan_inf_restored. Qed.
Print Assumptions C42_round_trip.
Example C42_round_trip_used : exists x, nan x /\
  F32WithNanInf_to_json f32 (fun x => x) x = JString (lit "NaN|010080ff").
Proof. exists (W32 x01 x00 x80 xff). split; [reflexivity|vm_compute; reflexivity]. Qed.

(** C42: the JSON form is a number exactly for finite floats; other floats have a text of their own. *)
Theorem C42_forms : forall num (num_of : f32 -> num) x,
  (finite x -> F32WithNanInf_to_json num num_of x = JNumber (num_of x)) /\
  (w32_to_Z x = 0x7f800000 -> F32WithNanInf_to_json num num_of x = JString (lit "Inf")) /\
  (w32_to_Z x = 0xff800000 -> F32WithNanInf_to_json num num_of x = JString (lit "-Inf")) /\
  (nan x -> exists s, F32WithNanInf_to_json num num_of x = JString s /\ nan_text x s).
Proof.
  intros num num_of x. unfold F32WithNanInf_to_json. repeat split.
  - intros F. destruct (f32_is_nan x) eqn:N; [apply nan_iff in N; unfold nan, finite in *; lia|].
    destruct (f32_is_infinite x) eqn:I; [apply infinite_iff in I; unfold finite in *; lia|]. rewrite !andb_false_r. reflexivity.
  - intros E. unfold f32_is_nan, f32_is_infinite, f32_is_negative, exponent_bits, mantissa_bits. rewrite E. reflexivity.
  - intros E. unfold f32_is_nan, f32_is_infinite, f32_is_negative, exponent_bits, mantissa_bits. rewrite E. reflexivity.
  - intros N. apply nan_iff in N. rewrite N. eexists. split; [reflexivity|]. unfold hex_encode, w32_bytes. cbn [flat_map]. rewrite app_nil_r.
    eexists _, _, _, _. split; [reflexivity|]. repeat split; apply hex2_pair.
Qed.
Print Assumptions C42_forms.

(** C42, finding: a text "NaN|" with hexadecimal digits for anything but four bytes makes reading panic instead of fail. *)
Theorem C42_nan_length_refuted : exists s, forall num num_as_f32 lower, lowers_ascii lower ->
  F32WithNanInf_from_json num num_as_f32 lower (JString s) = Panic.
Proof.
  exists (lit "NaN|00"). intros num num_as lower Hl. unfold F32WithNanInf_from_json. rewrite Hl by (repeat constructor). reflexivity.
Qed.
Print Assumptions C42_nan_length_refuted.

(** C42, finding: most float fields are plain.  A NaN or an infinity in such a field is written as null: an ordinary field then cannot
    be read back at all, and an optional one silently comes back absent. *)
Theorem C42_plain_refuted : forall num (num_of : f32 -> num) num_as_f32 x, ~ finite x ->
  f32_from_json num num_as_f32 (f32_to_json num num_of x) = Err /\
  option_f32_from_json num num_as_f32 (option_f32_to_json num num_of (Some x)) = Ok None.
Proof.
  intros num num_of num_as x N. unfold option_f32_to_json, f32_to_json.
  destruct (exponent_bits x =? 255) eqn:E; [split; reflexivity|]. apply finite_iff in E. contradiction.
Qed.
Print Assumptions C42_plain_refuted.
(** C42: finite values of plain fields are restored. *)
Theorem C42_plain : forall num (num_of : f32 -> num) num_as_f32, keeps_finite num_of num_as_f32 -> forall x, finite x ->
  f32_from_json num num_as_f32 (f32_to_json num num_of x) = Ok x /\
  option_f32_from_json num num_as_f32 (option_f32_to_json num num_of (Some x)) = Ok (Some x).
Proof.
  intros num num_of num_as H x F. pose proof (proj2 (finite_iff x) F) as E. unfold option_f32_to_json, f32_to_json. rewrite E.
  unfold option_f32_from_json, f32_from_json. rewrite (H x F). split; reflexivity.
Qed.
Print Assumptions C42_plain.

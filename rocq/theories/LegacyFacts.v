(** Facts about deriving legacy materials from 10.8 materials. *)
From Verif Require Import Base Quantize Common Enums StructMaterial Structs.
From Verif Require Import BaseFacts QuantizeFacts QuantizeMono.
From Coq Require Import SpecFloat.

Definition is_nan (x : f32) : bool := match f32_value x with S754_nan => true | _ => false end.

Lemma SF_total a b : a <> S754_nan -> b <> S754_nan -> SFltb a b = false -> SFleb b a = true.
Proof.
  unfold SFltb, SFleb, SFcompare.
  destruct a as [sa|sa| |sa ma ea], b as [sb|sb| |sb mb eb]; try congruence; intros _ _;
    try destruct sa; try destruct sb; try discriminate; try reflexivity.
  - rewrite (Z.compare_antisym ea eb). destruct (ea ?= eb)%Z eqn:E; cbn [CompOpp]; try discriminate; try reflexivity.
    change (Pos.compare_cont Eq mb ma) with (mb ?= ma)%positive. change (Pos.compare_cont Eq ma mb) with (ma ?= mb)%positive.
    rewrite (Pos.compare_antisym ma mb). destruct (ma ?= mb)%positive; cbn [CompOpp]; try discriminate; reflexivity.
  - rewrite (Z.compare_antisym ea eb). destruct (ea ?= eb)%Z eqn:E; cbn [CompOpp]; try discriminate; try reflexivity.
    change (Pos.compare_cont Eq mb ma) with (mb ?= ma)%positive. change (Pos.compare_cont Eq ma mb) with (ma ?= mb)%positive.
    rewrite (Pos.compare_antisym ma mb). destruct (ma ?= mb)%positive; cbn [CompOpp]; try discriminate; reflexivity.
Qed.
Lemma clamp_low x lo hi : is_nan x = false -> is_nan lo = false -> SFleb (f32_value lo) (f32_value hi) = true ->
  SFleb (f32_value lo) (f32_value lo) = true -> SFleb (f32_value lo) (f32_value (f32_clamp x lo hi)) = true.
Proof.
  intros Hx Hl Hlh Hll. unfold f32_clamp. destruct (SFltb (f32_value x) (f32_value lo)) eqn:E; cbv zeta.
  - destruct (SFltb (f32_value hi) (f32_value lo)); assumption.
  - destruct (SFltb (f32_value hi) (f32_value x)); [assumption|]. apply SF_total; [| |exact E].
    + unfold is_nan in Hx. intros N. rewrite N in Hx. discriminate.
    + unfold is_nan in Hl. intros N. rewrite N in Hl. discriminate.
Qed.
Lemma clamp_inside x lo hi : SFltb (f32_value x) (f32_value lo) = false -> SFltb (f32_value hi) (f32_value x) = false ->
  f32_clamp x lo hi = x.
Proof. intros H1 H2. unfold f32_clamp. rewrite H1. cbv zeta. rewrite H2. reflexivity. Qed.
Lemma clamp_nan x lo hi : is_nan x = true -> f32_clamp x lo hi = x.
Proof.
  intros H. unfold is_nan in H. apply clamp_inside; destruct (f32_value x); try discriminate; [reflexivity|].
  unfold SFltb, SFcompare. destruct (f32_value hi); reflexivity.
Qed.
Lemma ge0_of_clamp0 x : is_nan x = false -> exists q, quantize_u8 8 (f32_clamp x f32_0 f32_1) = Ok q.
Proof.
  intros H. apply (proj1 (quantise_u8_all 8 (or_intror eq_refl))).
  exact (clamp_low x f32_0 f32_1 H eq_refl eq_refl eq_refl).
Qed.
Lemma ge0_of_clamp0_7 x : is_nan x = false -> exists q, quantize_u8 7 (f32_clamp x f32_0 f32_1) = Ok q.
Proof.
  intros H. apply (proj1 (quantise_u8_all 7 (or_introl eq_refl))).
  exact (clamp_low x f32_0 f32_1 H eq_refl eq_refl eq_refl).
Qed.
Lemma pos_ge0 v : SFleb (f32_value f32_0_05) v = true -> SFleb (S754_zero false) v = true.
Proof.
  replace (f32_value f32_0_05) with (S754_finite false 13421773 (-28)) by (vm_compute; reflexivity).
  unfold SFleb, SFcompare. destruct v as [s|s| |s m e]; try destruct s; try discriminate; reflexivity.
Qed.
Lemma ge0_of_clamp05 x : is_nan x = false -> exists q, quantize_u8 8 (f32_clamp x f32_0_05 f32_1) = Ok q /\ 12 <= byte_to_Z q.
Proof.
  intros H. pose proof (clamp_low x f32_0_05 f32_1 H ltac:(vm_compute; reflexivity) ltac:(vm_compute; reflexivity) ltac:(vm_compute; reflexivity)) as L.
  destruct (proj2 (proj1 (quantise_u8_all 8 (or_intror eq_refl)) _) (pos_ge0 _ L)) as [q E]. exists q. split; [exact E|].
  assert (E0 : quantize_u8 8 f32_0_05 = Ok x0c) by (vm_compute; reflexivity).
  exact (quantize_u8_mono 8 _ _ _ _ (or_intror eq_refl) L E0 E).
Qed.

Lemma alpha_bits (o : bool) q : q < 128 -> 0 <= q ->
  Z.odd (byte_to_Z (Z_to_byte ((if o then 1 else 0) + 2 * q))) = o /\ byte_to_Z (Z_to_byte ((if o then 1 else 0) + 2 * q)) / 2 = q.
Proof.
  intros H1 H2. rewrite Z_to_byte_small by (destruct o; lia). split.
  - rewrite Z.odd_add, Z.odd_mul. destruct o; reflexivity.
  - destruct o; lia.
Qed.

(** All at once. *)
Lemma legacy_form m : is_nan (Material_glossy_image_lerp m) = false -> is_nan (Material_thickness m) = false ->
  is_nan (Material_edge_alpha m) = false ->
  exists s, SaveMaterial_of m = Ok s /\
    sm_name s = Material_name m /\ sm_base_color s = Material_base_color m /\ sm_glossy_color s = Material_glossy_color m /\
    sm_clearcoat_color s = Material_clearcoat_color m /\ sm_wrap_lighting s = Material_wrap_lighting m /\
    sm_roughness s = Material_roughness m /\ sm_edge s = Material_edge m /\ sm_opacity s = Material_opacity m /\
    (sm_is_metal s = true <-> Material_type_ m = MaterialType_Metal) /\
    Z.odd (byte_to_Z (sm_opacity_active_edge_alpha s)) = Material_opacity_active m /\
    12 <= byte_to_Z (sm_thickness s) <= 255 /\
    0 <= byte_to_Z (sm_glossy_image_lerp s) <= 255 /\
    0 <= byte_to_Z (sm_opacity_active_edge_alpha s) / 2 <= 127.
Proof.
  intros Hg Ht Ha. destruct (ge0_of_clamp0 _ Hg) as [g Eg]. destruct (ge0_of_clamp05 _ Ht) as (t & Et & Bt). destruct (ge0_of_clamp0_7 _ Ha) as [a Ea].
  pose proof (quantize_u8_range 7 _ _ (or_introl eq_refl) Ea) as Ra. change (2 ^ 7) with 128 in Ra. pose proof (byte_to_Z_range a) as Ba.
  destruct (alpha_bits (Material_opacity_active m) (byte_to_Z a) Ra (proj1 Ba)) as [O1 O2].
  unfold SaveMaterial_of. rewrite Eg, Et, Ea. cbn [rbind]. eexists. split; [reflexivity|]. cbn [sm_name sm_base_color sm_glossy_color sm_clearcoat_color sm_wrap_lighting sm_is_metal sm_roughness sm_glossy_image_lerp sm_edge sm_thickness sm_opacity sm_opacity_active_edge_alpha].
  pose proof (byte_to_Z_range t). pose proof (byte_to_Z_range (Z_to_byte (255 - byte_to_Z g))).
  rewrite O1, O2. repeat split; try lia; destruct (Material_type_ m); congruence.
Qed.

(** Codes survive: parameters that are dequantised codes give these codes back. *)
Lemma deq_inside bits z lo : bits = 7 \/ bits = 8 -> (lo = f32_0 \/ (lo = f32_0_05 /\ 13 <= z /\ bits = 8)) -> 0 <= z < 2 ^ bits ->
  f32_clamp (dequantize_u8 bits (Z_to_byte z)) lo f32_1 = dequantize_u8 bits (Z_to_byte z).
Proof.
  intros Hb Hl Hz.
  assert (T7 : forallb (fun z => (128 <=? z) || (negb (SFltb (f32_value (dequantize_u8 7 (Z_to_byte z))) (f32_value f32_0)) &&
                         negb (SFltb (f32_value f32_1) (f32_value (dequantize_u8 7 (Z_to_byte z)))))) all_u8 = true) by (vm_compute; reflexivity).
  assert (T8 : forallb (fun z => negb (SFltb (f32_value (dequantize_u8 8 (Z_to_byte z))) (f32_value f32_0)) &&
                         ((z <? 13) || negb (SFltb (f32_value (dequantize_u8 8 (Z_to_byte z))) (f32_value f32_0_05))) &&
                         negb (SFltb (f32_value f32_1) (f32_value (dequantize_u8 8 (Z_to_byte z))))) all_u8 = true) by (vm_compute; reflexivity).
  assert (Hz' : 0 <= z < 256) by (destruct Hb; subst; lia).
  pose proof (forall_u8 _ T7 z Hz') as E7. pose proof (forall_u8 _ T8 z Hz') as E8. cbv beta in E7, E8.
  apply andb_true_iff in E8. destruct E8 as [E8 E8c]. apply andb_true_iff in E8. destruct E8 as [E8a E8b].
  apply negb_true_iff in E8c, E8a.
  destruct Hl as [->|(-> & Hz13 & ->)].
  - destruct Hb; subst.
    + replace (128 <=? z) with false in E7 by lia. rewrite orb_false_l in E7. apply andb_true_iff in E7. destruct E7 as [A B].
      apply negb_true_iff in A, B. apply clamp_inside; assumption.
    + apply clamp_inside; assumption.
  - replace (z <? 13) with false in E8b by lia. rewrite orb_false_l in E8b. apply negb_true_iff in E8b. apply clamp_inside; assumption.
Qed.
Lemma legacy_codes_stable m g t a : 0 <= g <= 255 -> 13 <= t <= 255 -> 0 <= a <= 127 ->
  Material_glossy_image_lerp m = dequantize_u8 8 (Z_to_byte g) -> Material_thickness m = dequantize_u8 8 (Z_to_byte t) ->
  Material_edge_alpha m = dequantize_u8 7 (Z_to_byte a) ->
  exists s, SaveMaterial_of m = Ok s /\ byte_to_Z (sm_glossy_image_lerp s) = 255 - g /\ byte_to_Z (sm_thickness s) = t /\
    byte_to_Z (sm_opacity_active_edge_alpha s) / 2 = a.
Proof.
  intros Hg Ht Ha Eg Et Ea. unfold SaveMaterial_of. rewrite Eg, Et, Ea.
  rewrite !deq_inside; try lia; try (left; reflexivity); try (right; reflexivity); [| right; repeat split; lia].
  rewrite (quantize_u8_stable 8 (Z_to_byte g)); [|right; reflexivity|rewrite Z_to_byte_small; lia].
  rewrite (quantize_u8_stable 8 (Z_to_byte t)); [|right; reflexivity|rewrite Z_to_byte_small; lia].
  rewrite (quantize_u8_stable 7 (Z_to_byte a)); [|left; reflexivity|rewrite Z_to_byte_small; lia].
  cbn [rbind]. eexists. split; [reflexivity|]. cbn [sm_glossy_image_lerp sm_thickness sm_opacity_active_edge_alpha].
  rewrite (Z_to_byte_small g), (Z_to_byte_small a) by lia. rewrite Z_to_byte_small by lia. rewrite Z_to_byte_small by lia.
  repeat split. destruct (alpha_bits (Material_opacity_active m) a ltac:(lia) ltac:(lia)) as [_ H]. exact H.
Qed.
(** NaN parameters make the conversion panic. *)
Lemma legacy_nan m : is_nan (Material_glossy_image_lerp m) = true \/ is_nan (Material_thickness m) = true \/ is_nan (Material_edge_alpha m) = true ->
  SaveMaterial_of m = Panic.
Proof.
  assert (Q : forall bits x lo hi, is_nan x = true -> quantize_u8 bits (f32_clamp x lo hi) = Panic).
  { intros bits x lo hi H. rewrite clamp_nan by exact H. rewrite quantize_u8_spec. unfold is_nan in H.
    destruct (f32_value x); try discriminate. reflexivity. }
  assert (P : forall bits x, quantize_u8 bits x = Panic \/ exists q, quantize_u8 bits x = Ok q).
  { intros bits x. rewrite quantize_u8_spec. destruct (f32_ge0 _); eauto. }
  intros H. unfold SaveMaterial_of.
  destruct (P 8 (f32_clamp (Material_glossy_image_lerp m) f32_0 f32_1)) as [E|[q E]]; rewrite E; [reflexivity|]. cbn [rbind].
  destruct H as [H|H]; [rewrite Q in E by exact H; discriminate|].
  destruct (P 8 (f32_clamp (Material_thickness m) f32_0_05 f32_1)) as [E'|[q' E']]; rewrite E'; [reflexivity|]. cbn [rbind].
  destruct H as [H|H]; [rewrite Q in E' by exact H; discriminate|]. rewrite Q by exact H. reflexivity.
Qed.

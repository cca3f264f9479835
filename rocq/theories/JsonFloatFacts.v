(** Facts about floats in JSON. *)
From Verif Require Import Base Text Image Sound ColorText SpecColor JsonFloat SpecJson BaseFacts SoundFacts ColorFacts.

(** Lower-casing in ASCII only *)
Definition plain_lower (s : rstring) : rstring := map (fun c => if ((65 <=? c) && (c <=? 90))%N then (c + 32)%N else c) s.

Lemma exp_mag x : exponent_bits x = magnitude x / 8388608 /\ mantissa_bits x = magnitude x mod 8388608 /\ 0 <= magnitude x < 0x80000000.
Proof.
  unfold exponent_bits, mantissa_bits, magnitude. pose proof (w32_to_Z_range x).
  pose proof (Z.mod_pos_bound (w32_to_Z x) 0x80000000 ltac:(lia)).
  split; [|split; [|assumption]].
  - change 0x80000000 with (8388608 * 256). rewrite Z.rem_mul_r by lia. rewrite Z.mul_comm, Z.div_add by lia.
    rewrite (Z.div_small (w32_to_Z x mod 8388608)) by (apply Z.mod_pos_bound; lia). reflexivity.
  - change 0x80000000 with (8388608 * 256). rewrite Z.rem_mul_r by lia. rewrite Z.mul_comm, Z_mod_plus_full. rewrite Z.mod_mod by lia. reflexivity.
Qed.
Lemma nan_iff x : f32_is_nan x = true <-> nan x.
Proof.
  unfold f32_is_nan, nan. destruct (exp_mag x) as (-> & -> & R). pose proof (Z.div_mod (magnitude x) 8388608 ltac:(lia)).
  pose proof (Z.mod_pos_bound (magnitude x) 8388608 ltac:(lia)). rewrite andb_true_iff, negb_true_iff, Z.eqb_eq, Z.eqb_neq. lia.
Qed.
Lemma infinite_iff x : f32_is_infinite x = true <-> magnitude x = 0x7f800000.
Proof.
  unfold f32_is_infinite. destruct (exp_mag x) as (-> & -> & R). pose proof (Z.div_mod (magnitude x) 8388608 ltac:(lia)).
  pose proof (Z.mod_pos_bound (magnitude x) 8388608 ltac:(lia)). rewrite andb_true_iff, !Z.eqb_eq. lia.
Qed.
Lemma finite_iff x : (exponent_bits x =? 255) = false <-> finite x.
Proof.
  unfold finite. destruct (exp_mag x) as (-> & _ & R). pose proof (Z.div_mod (magnitude x) 8388608 ltac:(lia)).
  pose proof (Z.mod_pos_bound (magnitude x) 8388608 ltac:(lia)). rewrite Z.eqb_neq. lia.
Qed.
Lemma infinite_bits x : magnitude x = 0x7f800000 -> x = if f32_is_negative x then f32_neg_infinity else f32_infinity.
Proof.
  unfold magnitude, f32_is_negative, f32_neg_infinity, f32_infinity. intros H. pose proof (w32_to_Z_range x).
  pose proof (Z.div_mod (w32_to_Z x) 0x80000000 ltac:(lia)). rewrite <- (Z_to_w32_to_Z x) at 1.
  destruct (Z.leb_spec 2147483648 (w32_to_Z x)); f_equal; lia.
Qed.

Lemma hex_char_digit c v : hex_digit_value c v -> hex_char_value c = Some v /\ 0 <= v < 16.
Proof.
  unfold hex_digit_value, hex_char_value. change uchar with N in *. intros H.
  destruct ((48 <=? c)%N && (c <=? 57)%N) eqn:E1; [|destruct ((97 <=? c)%N && (c <=? 102)%N) eqn:E2;
    [|destruct ((65 <=? c)%N && (c <=? 70)%N) eqn:E3]]; try (split; [f_equal|]; lia); exfalso; lia.
Qed.
Lemma plain_lower_app a b : plain_lower (a ++ b) = plain_lower a ++ plain_lower b.
Proof. apply map_app. Qed.
Lemma lower_hex2 b : plain_lower (hex2 b) = hex2 b /\ Forall (fun c => (c < 128)%N) (hex2 b).
Proof.
  assert (G : forall n, 0 <= n < 16 -> let c := hex_digit n in (if ((65 <=? c) && (c <=? 90))%N then (c + 32)%N else c) = c /\ (c < 128)%N).
  { intros n H. unfold hex_digit. change uchar with N. destruct (n <? 10) eqn:E; (split; [destruct (_ && _)%bool eqn:K; lia|lia]). }
  pose proof (byte_to_Z_range b). pose proof (Z.div_lt_upper_bound (byte_to_Z b) 16 16 ltac:(lia) ltac:(lia)).
  pose proof (Z.div_pos (byte_to_Z b) 16 ltac:(lia) ltac:(lia)). pose proof (Z.mod_pos_bound (byte_to_Z b) 16 ltac:(lia)).
  destruct (G (byte_to_Z b / 16)) as [A1 A2]; [lia|]. destruct (G (byte_to_Z b mod 16)) as [B1 B2]; [lia|].
  unfold plain_lower, hex2. cbn [map]. rewrite A1, B1. split; [reflexivity|repeat constructor; assumption].
Qed.
Lemma decode_hex2 b s : hex_decode (hex2 b ++ s) = r <~ hex_decode s ;; Ok (b :: r).
Proof.
  destruct (hex2_pair b) as (hi & lo & v & w & E & Hv & Hw & Eb). rewrite E. cbn [app hex_decode].
  destruct (hex_char_digit _ _ Hv) as [-> _]. destruct (hex_char_digit _ _ Hw) as [-> _]. rewrite <- Eb, Z_to_byte_to_Z. reflexivity.
Qed.

Lemma decode_hex d : hex_decode (hex_encode d) = Ok d.
Proof. induction d as [|b d IH]; [reflexivity|]. unfold hex_encode in *. cbn [flat_map]. rewrite decode_hex2, IH. reflexivity. Qed.
Lemma nan_inf_restored : forall num (num_of : f32 -> num) num_as_f32 lower, keeps_finite num_of num_as_f32 -> lowers_ascii lower ->
  forall x, F32WithNanInf_from_json num num_as_f32 lower (F32WithNanInf_to_json num num_of x) = Ok x.
Proof.
  intros num num_of num_as lower Hf Hl' x. assert (Hl : forall s, Forall (fun c => (c < 128)%N) s -> lower s = plain_lower s) by exact Hl'. unfold F32WithNanInf_to_json. destruct (f32_is_nan x) eqn:N.
  - unfold F32WithNanInf_from_json, hex_encode, w32_bytes. cbn [flat_map]. rewrite app_nil_r.
    destruct (lower_hex2 (w32_0 x)) as [A1 A2], (lower_hex2 (w32_1 x)) as [B1 B2], (lower_hex2 (w32_2 x)) as [C1 C2], (lower_hex2 (w32_3 x)) as [D1 D2].
    rewrite Hl by (apply Forall_app; split; [repeat constructor|repeat (apply Forall_app; split; [assumption|]); assumption]).
    rewrite !plain_lower_app. rewrite A1, B1, C1, D1. cbn [rstring_eqb].
    change (plain_lower (lit "NaN|")) with (lit "nan|").
    assert (S : forall s, strip_prefix (lit "nan|") (lit "nan|" ++ s) = Some s) by reflexivity.
    assert (E1 : forall s, rstring_eqb (lit "nan|" ++ s) (lit "inf") = false) by reflexivity.
    assert (E2 : forall s, rstring_eqb (lit "nan|" ++ s) (lit "-inf") = false) by reflexivity.
    rewrite E1, E2, S. rewrite decode_hex2, decode_hex2, decode_hex2. rewrite <- (app_nil_r (hex2 (w32_3 x))), decode_hex2. cbn [hex_decode rbind].
    destruct x; reflexivity.
  - destruct (f32_is_infinite x) eqn:I.
    + pose proof (infinite_bits x (proj1 (infinite_iff x) I)) as E. destruct (f32_is_negative x); cbn [negb andb];
        unfold F32WithNanInf_from_json; rewrite Hl by (repeat constructor); rewrite E; reflexivity.
    + rewrite !andb_false_r. unfold F32WithNanInf_from_json. rewrite Hf; [reflexivity|].
      destruct (exp_mag x) as (_ & _ & R). unfold finite. unfold nan in *.
      assert (~ nan x) by (intros K; apply nan_iff in K; congruence). assert (magnitude x <> 0x7f800000) by (intros K; apply infinite_iff in K; congruence).
      unfold nan in *. lia.
Qed.

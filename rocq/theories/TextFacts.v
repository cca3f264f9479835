(** Lemmas about Text.v *)
From Verif Require Import Base BaseFacts Text.
From Coq Require Import Strings.Byte ZifyBool ZifyNat ZifyN.
Ltac Zify.zify_post_hook ::= Z.div_mod_to_equations.

(** ** UTF-16 *)
Lemma units_of_encode us :
  Forall (fun u => 0 <= u < 65536) us ->
  units_of_bytes (flat_map (fun u => w16_bytes (Z_to_w16 u)) us) = us.
Proof.
  induction us as [|u us IH]; intros H; [reflexivity|].
  inversion H as [|? ? Hu Hus]; subst. cbn [flat_map w16_bytes app units_of_bytes].
  rewrite IH by exact Hus. f_equal.
  transitivity (w16_to_Z (Z_to_w16 u)); [destruct (Z_to_w16 u); reflexivity|].
  apply w16_to_Z_small; exact Hu.
Qed.

Lemma even_flat_w16 us : Nat.even (List.length (flat_map (fun u => w16_bytes (Z_to_w16 u)) us)) = true.
Proof. induction us as [|u us IH]; [reflexivity|]. cbn [flat_map w16_bytes app List.length Nat.even]. exact IH. Qed.

Lemma char_utf16_range c : is_scalar c = true -> Forall (fun u => 0 <= u < 65536) (char_utf16 c).
Proof.
  unfold is_scalar, char_utf16. intros H.
  destruct (Z.of_N c <? 65536) eqn:E; repeat constructor; lia.
Qed.

Lemma Forall_flat_map {A B} (P : B -> Prop) (f : A -> list B) l :
  (forall a, In a l -> Forall P (f a)) -> Forall P (flat_map f l).
Proof.
  induction l as [|a l IH]; intros H; cbn; [constructor|].
  apply Forall_app. split; [apply H; left; reflexivity | apply IH; intros; apply H; right; assumption].
Qed.

Lemma from_utf16_char c us : is_scalar c = true ->
  from_utf16 (char_utf16 c ++ us) = (s <~ from_utf16 us ;; Ok (c :: s)).
Proof.
  unfold is_scalar, char_utf16. intros H.
  destruct (Z.of_N c <? 65536) eqn:E; cbn [app from_utf16].
  - replace (in_range 55296 57343 (Z.of_N c)) with false by (unfold in_range; lia).
    rewrite N2Z.id. reflexivity.
  - set (z := Z.of_N c) in *.
    replace (in_range 55296 57343 (55296 + (z - 65536) / 1024)) with true by (unfold in_range; lia).
    replace (55296 + (z - 65536) / 1024 <? 56320) with true by lia.
    replace (in_range 56320 57343 (56320 + (z - 65536) mod 1024)) with true by (unfold in_range; lia).
    replace (Z.to_N _) with c by lia. reflexivity.
Qed.

Lemma from_utf16_encode s : is_rstring s = true -> from_utf16 (flat_map char_utf16 s) = Ok s.
Proof.
  induction s as [|c s IH]; intros H; [reflexivity|].
  cbn [is_rstring forallb] in H. apply andb_true_iff in H. destruct H as [Hc Hs].
  cbn [flat_map]. rewrite from_utf16_char by exact Hc. rewrite IH by exact Hs. reflexivity.
Qed.

Lemma utf16_roundtrip s : is_rstring s = true -> decode_utf16le (encode_utf16le s) = Ok s.
Proof.
  intros H. unfold decode_utf16le, encode_utf16le. rewrite even_flat_w16. cbn [negb].
  rewrite units_of_encode. { apply from_utf16_encode, H. }
  apply Forall_flat_map. intros c Hc. apply char_utf16_range.
  unfold is_rstring in H. rewrite forallb_forall in H. apply H, Hc.
Qed.

Lemma even_pair_ind (P : bytes -> Prop) :
  P [] -> (forall a b d, P d -> P (a :: b :: d)) ->
  forall d, Nat.even (List.length d) = true -> P d.
Proof.
  intros H0 H2. fix IH 1. intros [|a [|b d]] E; [exact H0|discriminate|].
  apply H2, IH, E.
Qed.

Lemma encode_units d : Nat.even (List.length d) = true ->
  flat_map (fun u => w16_bytes (Z_to_w16 u)) (units_of_bytes d) = d.
Proof.
  intros E. revert d E. apply even_pair_ind; [reflexivity|].
  intros a b d IH. cbn [units_of_bytes flat_map]. rewrite Z_to_w16_to_Z, IH. reflexivity.
Qed.

Lemma units_range d : Forall (fun u => 0 <= u < 65536) (units_of_bytes d).
Proof.
  revert d. fix IH 1. intros [|a [|b d]]; cbn; try constructor.
  - apply w16_to_Z_range.
  - apply IH.
Qed.

Lemma from_utf16_inv us : Forall (fun u => 0 <= u < 65536) us -> forall s, from_utf16 us = Ok s ->
  flat_map char_utf16 s = us /\ is_rstring s = true.
Proof.
  revert us. fix IH 1. intros [|u us] HR s; cbn [from_utf16].
  - intros [= <-]. split; reflexivity.
  - inversion HR as [|? ? Hu HR']; subst.
    destruct (in_range 55296 57343 u) eqn:R.
    + destruct (u <? 56320) eqn:L; [|discriminate].
      destruct us as [|u2 us]; [discriminate|].
      inversion HR' as [|? ? Hu2 HR'']; subst.
      destruct (in_range 56320 57343 u2) eqn:R2; [|discriminate].
      destruct (from_utf16 us) as [s'|] eqn:E; cbn [rbind option_map]; [|discriminate].
      intros [= <-]. destruct (IH us HR'' s' E) as [I1 I2].
      unfold in_range in *. cbn [flat_map is_rstring forallb].
      change (forallb is_scalar s') with (is_rstring s'). rewrite I1, I2.
      unfold char_utf16.
      remember (Z.to_N (65536 + (u - 55296) * 1024 + (u2 - 56320))) as c.
      replace (Z.of_N c <? 65536) with false by lia.
      replace (55296 + (Z.of_N c - 65536) / 1024) with u by lia.
      replace (56320 + (Z.of_N c - 65536) mod 1024) with u2 by lia.
      split; [reflexivity|]. unfold is_scalar. lia.
    + destruct (from_utf16 us) as [s'|] eqn:E; cbn [rbind option_map]; [|discriminate].
      intros [= <-]. destruct (IH us HR' s' E) as [I1 I2].
      unfold in_range in *. cbn [flat_map is_rstring forallb].
      change (forallb is_scalar s') with (is_rstring s'). rewrite I1, I2.
      unfold char_utf16. replace (Z.of_N (Z.to_N u)) with u by lia.
      replace (u <? 65536) with true by lia.
      split; [reflexivity|]. unfold is_scalar. lia.
Qed.

Lemma utf16_decode_inv d s : decode_utf16le d = Ok s -> encode_utf16le s = d /\ is_rstring s = true.
Proof.
  unfold decode_utf16le, encode_utf16le.
  destruct (Nat.even (List.length d)) eqn:E; cbn [negb]; [|discriminate].
  intros H. apply from_utf16_inv in H; [|apply units_range]. destruct H as [H1 H2].
  rewrite H1. split; [apply encode_units, E | exact H2].
Qed.

(** ** UTF-8 *)
Lemma utf8_decode_char c d : is_scalar c = true ->
  utf8_decode (utf8_char c ++ d) = option_map (cons c) (utf8_decode d).
Proof.
  unfold is_scalar, utf8_char. intros H.
  assert (B : forall z, 0 <= z < 256 -> byte_to_Z (Z_to_byte z) = z) by (intros; apply Z_to_byte_small; assumption).
  set (z := Z.of_N c) in *.
  destruct (z <? 128) eqn:E1; [|destruct (z <? 2048) eqn:E2; [|destruct (z <? 65536) eqn:E3]];
    cbn [app utf8_decode].
  - rewrite B by lia. rewrite E1. replace (Z.to_N z) with c by lia. reflexivity.
  - rewrite !B by lia.
    replace (192 + z / 64 <? 128) with false by lia.
    replace (in_range 194 223 (192 + z / 64)) with true by (unfold in_range; lia).
    replace (cont (128 + z mod 64)) with true by (unfold cont, in_range; lia).
    replace (Z.to_N _) with c by lia. reflexivity.
  - rewrite !B by lia.
    replace (224 + z / 4096 <? 128) with false by lia.
    replace (in_range 194 223 (224 + z / 4096)) with false by (unfold in_range; lia).
    replace (in_range 224 239 (224 + z / 4096)) with true by (unfold in_range; lia).
    replace (cont (128 + z mod 64)) with true by (unfold cont, in_range; lia).
    replace (cont (128 + (z / 64) mod 64)) with true by (unfold cont, in_range; lia).
    match goal with |- (if ?c then _ else _) = _ => replace c with true by (unfold in_range; lia) end.
    replace (Z.to_N _) with c by lia. reflexivity.
  - rewrite !B by lia.
    replace (240 + z / 262144 <? 128) with false by lia.
    replace (in_range 194 223 (240 + z / 262144)) with false by (unfold in_range; lia).
    replace (in_range 224 239 (240 + z / 262144)) with false by (unfold in_range; lia).
    replace (in_range 240 244 (240 + z / 262144)) with true by (unfold in_range; lia).
    replace (cont (128 + z mod 64)) with true by (unfold cont, in_range; lia).
    replace (cont (128 + (z / 64) mod 64)) with true by (unfold cont, in_range; lia).
    replace (cont (128 + (z / 4096) mod 64)) with true by (unfold cont, in_range; lia).
    match goal with |- (if ?c then _ else _) = _ => replace c with true by (unfold in_range; lia) end.
    replace (Z.to_N _) with c by lia. reflexivity.
Qed.

Lemma utf8_decode_encode s : is_rstring s = true -> utf8_decode (utf8_encode s) = Some s.
Proof.
  induction s as [|c s IH]; intros H; [reflexivity|].
  cbn [is_rstring forallb] in H. apply andb_true_iff in H. destruct H as [Hc Hs].
  cbn [utf8_encode flat_map]. rewrite utf8_decode_char by exact Hc.
  change (flat_map utf8_char s) with (utf8_encode s). rewrite IH by exact Hs. reflexivity.
Qed.

Lemma utf8_decode_inv d : forall s, utf8_decode d = Some s -> utf8_encode s = d /\ is_rstring s = true.
Proof.
  revert d. fix IH 1. intros [|b0 d1] s; cbn [utf8_decode].
  - intros [= <-]; split; reflexivity.
  - assert (B : forall z b, z = byte_to_Z b -> Z_to_byte z = b) by (intros; subst; apply Z_to_byte_to_Z).
    pose proof (byte_to_Z_range b0) as R0. set (z0 := byte_to_Z b0) in *.
    assert (K : forall c d' rest s, utf8_encode s = d' -> is_rstring s = true -> is_scalar c = true ->
               utf8_char c = rest -> utf8_encode (c :: s) = rest ++ d' /\ is_rstring (c :: s) = true).
    { intros c d' rest s' H1 H2 H3 H4. cbn [utf8_encode flat_map is_rstring forallb].
      rewrite H3, H4. change (flat_map utf8_char s') with (utf8_encode s'). rewrite H1. split; auto. }
    destruct (z0 <? 128) eqn:E1.
    + destruct (utf8_decode d1) as [s'|] eqn:E; cbn [rbind option_map]; [|discriminate]. intros [= <-].
      destruct (IH d1 s' E) as [I1 I2]. apply (K _ d1 [b0]); auto.
      * unfold is_scalar; lia.
      * unfold utf8_char. replace (Z.of_N (Z.to_N z0)) with z0 by lia. rewrite E1. rewrite (B z0 b0 eq_refl). reflexivity.
    + clear E1.
      destruct (in_range 194 223 z0) eqn:E2.
      { destruct d1 as [|b1 d2]; [discriminate|].
        pose proof (byte_to_Z_range b1) as R1. set (z1 := byte_to_Z b1) in *.
        destruct (cont z1) eqn:C1; [|discriminate].
        destruct (utf8_decode d2) as [s'|] eqn:E; cbn [rbind option_map]; [|discriminate]. intros [= <-].
        destruct (IH d2 s' E) as [I1 I2]. unfold cont, in_range in *.
        apply (K _ d2 [b0; b1]); auto.
        - unfold is_scalar; lia.
        - unfold utf8_char. remember (Z.to_N ((z0 - 192) * 64 + (z1 - 128))) as c.
          replace (Z.of_N c <? 128) with false by lia. replace (Z.of_N c <? 2048) with true by lia.
          rewrite (B (192 + Z.of_N c / 64) b0) by (fold z0; lia).
          rewrite (B (128 + Z.of_N c mod 64) b1) by (fold z1; lia). reflexivity. }
      destruct (in_range 224 239 z0) eqn:E3.
      { destruct d1 as [|b1 [|b2 d3]]; try discriminate.
        pose proof (byte_to_Z_range b1) as R1. set (z1 := byte_to_Z b1) in *.
        pose proof (byte_to_Z_range b2) as R2. set (z2 := byte_to_Z b2) in *.
        match goal with |- (if ?c then _ else _) = _ -> _ => destruct c eqn:C1; [|discriminate] end.
        destruct (utf8_decode d3) as [s'|] eqn:E; cbn [rbind option_map]; [|discriminate]. intros [= <-].
        destruct (IH d3 s' E) as [I1 I2]. unfold cont, in_range in *.
        apply (K _ d3 [b0; b1; b2]); auto.
        - unfold is_scalar; lia.
        - unfold utf8_char. remember (Z.to_N ((z0 - 224) * 4096 + (z1 - 128) * 64 + (z2 - 128))) as c.
          replace (Z.of_N c <? 128) with false by lia. replace (Z.of_N c <? 2048) with false by lia.
          replace (Z.of_N c <? 65536) with true by lia.
          rewrite (B (224 + Z.of_N c / 4096) b0) by (fold z0; lia).
          rewrite (B (128 + (Z.of_N c / 64) mod 64) b1) by (fold z1; lia).
          rewrite (B (128 + Z.of_N c mod 64) b2) by (fold z2; lia). reflexivity. }
      destruct (in_range 240 244 z0) eqn:E4; [|discriminate].
      { destruct d1 as [|b1 [|b2 [|b3 d4]]]; try discriminate.
        pose proof (byte_to_Z_range b1) as R1. set (z1 := byte_to_Z b1) in *.
        pose proof (byte_to_Z_range b2) as R2. set (z2 := byte_to_Z b2) in *.
        pose proof (byte_to_Z_range b3) as R3. set (z3 := byte_to_Z b3) in *.
        match goal with |- (if ?c then _ else _) = _ -> _ => destruct c eqn:C1; [|discriminate] end.
        destruct (utf8_decode d4) as [s'|] eqn:E; cbn [rbind option_map]; [|discriminate]. intros [= <-].
        destruct (IH d4 s' E) as [I1 I2]. unfold cont, in_range in *.
        apply (K _ d4 [b0; b1; b2; b3]); auto.
        - unfold is_scalar; lia.
        - unfold utf8_char.
          remember (Z.to_N ((z0 - 240) * 262144 + (z1 - 128) * 4096 + (z2 - 128) * 64 + (z3 - 128))) as c.
          replace (Z.of_N c <? 128) with false by lia. replace (Z.of_N c <? 2048) with false by lia.
          replace (Z.of_N c <? 65536) with false by lia.
          rewrite (B (240 + Z.of_N c / 262144) b0) by (fold z0; lia).
          rewrite (B (128 + (Z.of_N c / 4096) mod 64) b1) by (fold z1; lia).
          rewrite (B (128 + (Z.of_N c / 64) mod 64) b2) by (fold z2; lia).
          rewrite (B (128 + Z.of_N c mod 64) b3) by (fold z3; lia). reflexivity. }
Qed.

(** ** Strings with encoding *)
Lemma swe_bytes_roundtrip d : swe_to_bytes (swe_of_bytes d) = Ok d.
Proof.
  unfold swe_of_bytes, swe_to_bytes. destruct (utf8_decode d) as [s|] eqn:E; cbn [swe_encoding swe_string].
  - apply utf8_decode_inv in E. destruct E as [-> _]. reflexivity.
  - apply encode_decode_latin1.
Qed.

(** A [StringWithEncoding] that the reader can produce. *)
Definition swe_canonical (s : StringWithEncoding) : bool :=
  match swe_encoding s with
  | Utf8 => is_rstring (swe_string s)
  | Latin1 => match encode_latin1_lossy (swe_string s) with
              | Ok d => match utf8_decode d with None => true | Some _ => false end
              | _ => false
              end
  end.

Lemma encode_latin1_inv s : forall d, encode_latin1_lossy s = Ok d -> decode_latin1 d = s.
Proof.
  induction s as [|c s IH]; intros d; cbn [encode_latin1_lossy].
  - intros [= <-]; reflexivity.
  - destruct (c <? 256)%N eqn:Hc; [|discriminate].
    destruct (Byte.of_N c) as [b|] eqn:B; [|discriminate].
    destruct (encode_latin1_lossy s) as [d'|]; cbn; [|discriminate].
    intros [= <-]. cbn. f_equal; [apply Byte.to_of_N, B | apply IH; reflexivity].
Qed.

Lemma swe_value_roundtrip s : swe_canonical s = true ->
  exists d, swe_to_bytes s = Ok d /\ swe_of_bytes d = s.
Proof.
  destruct s as [e s]. unfold swe_canonical, swe_to_bytes, swe_of_bytes; cbn [swe_encoding swe_string]. destruct e.
  - destruct (encode_latin1_lossy s) as [d|] eqn:E; [|discriminate].
    destruct (utf8_decode d) eqn:U; [discriminate|]. intros _.
    exists d. rewrite U. split; auto. f_equal. apply encode_latin1_inv, E.
  - intros H. exists (utf8_encode s). rewrite utf8_decode_encode by exact H. split; reflexivity.
Qed.

Lemma swe_of_bytes_canonical d : swe_canonical (swe_of_bytes d) = true.
Proof.
  unfold swe_of_bytes. destruct (utf8_decode d) as [s|] eqn:E; unfold swe_canonical; cbn [swe_encoding swe_string].
  - apply utf8_decode_inv in E. apply E.
  - rewrite encode_decode_latin1, E. reflexivity.
Qed.

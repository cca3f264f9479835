(** Facts about the text form of colours. *)
From Verif Require Import Base Text Biff Common ColorText SpecColor BaseFacts.

Lemma utf8_ascii (c : uchar) : (c < 128)%N -> utf8_char c = [Z_to_byte (Z.of_N c)].
Proof. intros H. unfold utf8_char. replace (Z.of_N c <? 128) with true by (symmetry; apply Z.ltb_lt; lia). reflexivity. Qed.

Lemma hex_digit_byte c v : hex_digit_value c v ->
  exists b, utf8_char c = [b] /\ hex_value b = Some v /\ byte_to_Z b <> 43 /\ byte_to_Z b < 128 /\ 0 <= v < 16.
Proof.
  intros H. assert (B : (c < 128)%N) by (unfold hex_digit_value in H; lia).
  exists (Z_to_byte (Z.of_N c)). rewrite (utf8_ascii c B).
  assert (E : byte_to_Z (Z_to_byte (Z.of_N c)) = Z.of_N c) by (apply Z_to_byte_small; lia).
  unfold hex_value. rewrite E. unfold in_range. unfold hex_digit_value in H.
  repeat split; try lia.
  destruct H as [[H ->]|[[H ->]|[H ->]]].
  - replace ((48 <=? Z.of_N c) && (Z.of_N c <=? 57)) with true by lia. reflexivity.
  - replace ((48 <=? Z.of_N c) && (Z.of_N c <=? 57)) with false by lia.
    replace ((97 <=? Z.of_N c) && (Z.of_N c <=? 102)) with true by lia. reflexivity.
  - replace ((48 <=? Z.of_N c) && (Z.of_N c <=? 57)) with false by lia.
    replace ((97 <=? Z.of_N c) && (Z.of_N c <=? 102)) with false by lia.
    replace ((65 <=? Z.of_N c) && (Z.of_N c <=? 70)) with true by lia. reflexivity.
Qed.

Lemma utf8_encode_app s t : utf8_encode (s ++ t) = utf8_encode s ++ utf8_encode t.
Proof. unfold utf8_encode. apply flat_map_app. Qed.

Lemma hex_pair_bytes p b : hex_pair p b ->
  exists b1 b2, utf8_encode p = [b1; b2] /\ u8_from_hex [b1; b2] = Ok b /\ byte_to_Z b1 < 128 /\ byte_to_Z b2 < 128.
Proof.
  intros (hi & lo & v & w & -> & Hh & Hl & E).
  destruct (hex_digit_byte _ _ Hh) as (b1 & E1 & V1 & N1 & A1 & R1).
  destruct (hex_digit_byte _ _ Hl) as (b2 & E2 & V2 & N2 & A2 & R2).
  exists b1, b2. split; [unfold utf8_encode; cbn [flat_map]; rewrite E1, E2; reflexivity|]. split; [|split; assumption].
  unfold u8_from_hex. replace (byte_to_Z b1 =? 43) with false by lia.
  cbn [hex_digits_value]. rewrite V1, V2.
  replace (0 * 16 + v <? 256) with true by lia.
  replace ((0 * 16 + v) * 16 + w <? 256) with true by lia. cbn [rbind].
  replace ((0 * 16 + v) * 16 + w) with (byte_to_Z b) by lia. rewrite Z_to_byte_to_Z. reflexivity.
Qed.

Lemma cont_false b : byte_to_Z b < 128 -> in_range 0x80 0xBF (byte_to_Z b) = false.
Proof. unfold in_range. lia. Qed.

Lemma color_text_read t c : color_text t c -> Color_of_text t = Ok c.
Proof.
  intros (r & g & b & Hr & Hg & Hb & H).
  destruct (hex_pair_bytes _ _ Hr) as (r1 & r2 & Er & Ur & Lr1 & Lr2).
  destruct (hex_pair_bytes _ _ Hg) as (g1 & g2 & Eg & Ug & Lg1 & Lg2).
  destruct (hex_pair_bytes _ _ Hb) as (b1 & b2 & Eb & Ub & Lb1 & Lb2).
  destruct H as [[-> Hu]|(u & Hu & ->)].
  - unfold Color_of_text. rewrite !utf8_encode_app, Er, Eg, Eb. change (utf8_encode [35%N]) with [x23].
    cbn [app]. set (l := [x23; r1; r2; g1; g2; b1; b2]). change (zlen l) with 7. change (7 =? 7) with true.
    cbv iota. unfold str_slice, is_char_boundary.
    change (zlen l) with 7.
    change (nth_error l (Z.to_nat 1)) with (Some r1). change (nth_error l (Z.to_nat 3)) with (Some g1).
    change (nth_error l (Z.to_nat 5)) with (Some b1).
    change (nth_error l (Z.to_nat 7)) with (@None byte).
    cbv beta iota. rewrite !cont_false by (assumption || reflexivity).
    change (firstn (Z.to_nat (1 - 0)) (skipn (Z.to_nat 0) l)) with [x23].
    change (firstn (Z.to_nat (3 - 1)) (skipn (Z.to_nat 1) l)) with [r1; r2].
    change (firstn (Z.to_nat (5 - 3)) (skipn (Z.to_nat 3) l)) with [g1; g2].
    change (firstn (Z.to_nat (7 - 5)) (skipn (Z.to_nat 5) l)) with [b1; b2].
    change (0 =? 0) with true. change (1 =? 0) with false. change (3 =? 0) with false. change (5 =? 0) with false. change (7 =? 0) with false.
    change (0 <=? 1) with true. change (1 <=? 3) with true. change (3 <=? 5) with true. change (5 <=? 7) with true.
    change (byte_to_Z x23 =? 35) with true. cbn [rbind negb andb].
    rewrite Ur. cbn [rbind]. rewrite Ug. cbn [rbind]. change (7 =? 7) with true. cbn [rbind andb]. rewrite Ub. cbn [rbind]. rewrite <- Hu. destruct c; reflexivity.
  - destruct (hex_pair_bytes _ _ Hu) as (u1 & u2 & Eu & Uu & Lu1 & Lu2).
    unfold Color_of_text. rewrite !utf8_encode_app, Er, Eg, Eb, Eu. change (utf8_encode [35%N]) with [x23].
    cbn [app]. set (l := [u1; u2; x23; r1; r2; g1; g2; b1; b2]). change (zlen l) with 9. change (9 =? 7) with false. change (9 =? 9) with true.
    cbv iota. unfold str_slice, is_char_boundary.
    change (zlen l) with 9.
    change (nth_error l (Z.to_nat 2)) with (Some x23). change (nth_error l (Z.to_nat 3)) with (Some r1).
    change (nth_error l (Z.to_nat 5)) with (Some g1). change (nth_error l (Z.to_nat 7)) with (Some b1).
    change (nth_error l (Z.to_nat 9)) with (@None byte).
    cbv beta iota. rewrite !cont_false by (assumption || reflexivity).
    change (firstn (Z.to_nat (3 - 2)) (skipn (Z.to_nat 2) l)) with [x23].
    change (firstn (Z.to_nat (2 - 0)) (skipn (Z.to_nat 0) l)) with [u1; u2].
    change (firstn (Z.to_nat (5 - 3)) (skipn (Z.to_nat 3) l)) with [r1; r2].
    change (firstn (Z.to_nat (7 - 5)) (skipn (Z.to_nat 5) l)) with [g1; g2].
    change (firstn (Z.to_nat (9 - 7)) (skipn (Z.to_nat 7) l)) with [b1; b2].
    change (0 =? 0) with true. change (2 =? 0) with false. change (3 =? 0) with false. change (5 =? 0) with false. change (7 =? 0) with false. change (9 =? 0) with false.
    change (2 <=? 3) with true. change (0 <=? 2) with true. change (3 <=? 5) with true. change (5 <=? 7) with true. change (7 <=? 9) with true.
    change (byte_to_Z x23 =? 35) with true. cbn [rbind negb andb]. rewrite Uu. cbn [rbind negb andb]. rewrite Ur. cbn [rbind]. rewrite Ug. cbn [rbind]. change (9 =? 9) with true. cbn [rbind andb]. rewrite Ub. cbn [rbind]. destruct c; reflexivity.
Qed.

Lemma hex_digit_is n : 0 <= n < 16 -> hex_digit_value (hex_digit n) n.
Proof. intros H. unfold hex_digit_value, hex_digit. destruct (n <? 10) eqn:E; rewrite Z2N.id by lia; lia. Qed.

Lemma hex2_pair b : hex_pair (hex2 b) b.
Proof.
  pose proof (byte_to_Z_range b). unfold hex2.
  exists (hex_digit (byte_to_Z b / 16)), (hex_digit (byte_to_Z b mod 16)), (byte_to_Z b / 16), (byte_to_Z b mod 16).
  split; [reflexivity|].
  assert (0 <= byte_to_Z b / 16 < 16) by (split; [apply Z.div_pos; lia|apply Z.div_lt_upper_bound; lia]).
  pose proof (Z.mod_pos_bound (byte_to_Z b) 16).
  split; [apply hex_digit_is; assumption|]. split; [apply hex_digit_is; lia|].
  pose proof (Z.div_mod (byte_to_Z b) 16). lia.
Qed.

Lemma color_text_written c :
  color_text (Color_to_text c) c /\ (List.length (Color_to_text c) = if byte_to_Z (c_unused c) =? 0 then 7%nat else 9%nat).
Proof.
  unfold Color_to_text. destruct (byte_to_Z (c_unused c) =? 0) eqn:E.
  - split; [|reflexivity]. exists (hex2 (c_r c)), (hex2 (c_g c)), (hex2 (c_b c)).
    repeat (split; [apply hex2_pair|]). left. split; [reflexivity|]. apply byte_to_Z_inj. apply Z.eqb_eq in E. rewrite E. reflexivity.
  - split; [|reflexivity]. exists (hex2 (c_r c)), (hex2 (c_g c)), (hex2 (c_b c)).
    repeat (split; [apply hex2_pair|]). right. exists (hex2 (c_unused c)). split; [apply hex2_pair|reflexivity].
Qed.

(** ** What is accepted *)
Lemma utf8_first (c : uchar) : is_scalar c = true -> exists b d, utf8_char c = b :: d /\
  (byte_to_Z b < 128 -> d = [] /\ Z.of_N c = byte_to_Z b).
Proof.
  intros S. unfold is_scalar in S.
  assert (B : Z.of_N c < 0x110000) by lia.
  unfold utf8_char. destruct (Z.of_N c <? 128) eqn:E1.
  { exists (Z_to_byte (Z.of_N c)), []. split; [reflexivity|]. rewrite Z_to_byte_small by lia. auto. }
  assert (K : forall z, 128 <= z < 256 -> byte_to_Z (Z_to_byte z) < 128 -> False) by (intros z Hz; rewrite Z_to_byte_small; lia).
  destruct (Z.of_N c <? 2048) eqn:E2; [|destruct (Z.of_N c <? 65536) eqn:E3]; do 2 eexists; (split; [reflexivity|]);
    intros L; exfalso; revert L; apply K.
  - assert (0 <= Z.of_N c / 64 < 32) by (split; [apply Z.div_pos; lia|apply Z.div_lt_upper_bound; lia]). lia.
  - assert (0 <= Z.of_N c / 4096 < 16) by (split; [apply Z.div_pos; lia|apply Z.div_lt_upper_bound; lia]). lia.
  - assert (0 <= Z.of_N c / 262144 < 8) by (split; [apply Z.div_pos; lia|apply Z.div_lt_upper_bound; lia]). lia.
Qed.

Lemma utf8_all_ascii s : is_rstring s = true -> Forall (fun b => byte_to_Z b < 128) (utf8_encode s) ->
  s = map Byte.to_N (utf8_encode s).
Proof.
  induction s as [|c s IH]; intros S F; [reflexivity|].
  unfold is_rstring in S. cbn [forallb] in S. apply andb_true_iff in S. destruct S as [Sc Ss].
  destruct (utf8_first c Sc) as (b & d & E & K). unfold utf8_encode in *. cbn [flat_map] in *. rewrite E in *. cbn [app] in F.
  inversion F as [|? ? Hb F']; subst. destruct (K Hb) as [-> V]. cbn [app] in *. cbn [map]. f_equal; [|apply IH; assumption].
  unfold byte_to_Z in V. lia.
Qed.

Lemma from_hex_pair b1 b2 x : u8_from_hex [b1; b2] = Ok x -> byte_to_Z b1 <> 43 ->
  byte_to_Z b1 < 128 /\ byte_to_Z b2 < 128 /\ hex_pair [Byte.to_N b1; Byte.to_N b2] x.
Proof.
  assert (HV : forall b v, hex_value b = Some v -> byte_to_Z b < 128 /\ hex_digit_value (Byte.to_N b) v /\ 0 <= v < 16).
  { intros b v. unfold hex_value, in_range, hex_digit_value. fold (byte_to_Z b).
    destruct ((48 <=? byte_to_Z b) && (byte_to_Z b <=? 57)) eqn:E1; [intros [= <-]; lia|].
    destruct ((97 <=? byte_to_Z b) && (byte_to_Z b <=? 102)) eqn:E2; [intros [= <-]; lia|].
    destruct ((65 <=? byte_to_Z b) && (byte_to_Z b <=? 70)) eqn:E3; [intros [= <-]; lia|discriminate]. }
  unfold u8_from_hex. intros H N. replace (byte_to_Z b1 =? 43) with false in H by lia.
  cbn [hex_digits_value] in H.
  destruct (hex_value b1) as [v|] eqn:E1; [|discriminate]. destruct (HV _ _ E1) as (L1 & D1 & R1).
  destruct (0 * 16 + v <? 256); [|discriminate].
  destruct (hex_value b2) as [w|] eqn:E2; [|discriminate]. destruct (HV _ _ E2) as (L2 & D2 & R2).
  destruct ((0 * 16 + v) * 16 + w <? 256) eqn:E3; [|discriminate].
  cbn [rbind] in H. injection H as <-. split; [assumption|]. split; [assumption|].
  exists (Byte.to_N b1), (Byte.to_N b2), v, w. split; [reflexivity|]. split; [assumption|]. split; [assumption|].
  rewrite Z_to_byte_small by lia. lia.
Qed.

Lemma hash_byte b : byte_to_Z b = 35 -> Byte.to_N b = 35%N.
Proof. unfold byte_to_Z. lia. Qed.

Lemma color_text_accepted t c : is_rstring t = true -> ~ In 43%N t -> Color_of_text t = Ok c -> color_text t c.
Proof.
  intros S NP H.
  assert (P : forall b, In b (utf8_encode t) -> Forall (fun b => byte_to_Z b < 128) (utf8_encode t) -> byte_to_Z b <> 43).
  { intros b Hb F E. apply NP. rewrite (utf8_all_ascii t S F). replace 43%N with (Byte.to_N b) by (unfold byte_to_Z in E; lia).
    apply in_map. exact Hb. }
  assert (P' : forall b, In b (utf8_encode t) -> byte_to_Z b <> 43).
  { intros b Hb E. apply NP. clear -Hb E S. revert Hb. unfold utf8_encode. induction t as [|x t IH]; [intros []|].
    unfold is_rstring in S. cbn [forallb] in S. apply andb_true_iff in S. destruct S as [Sx St].
    cbn [flat_map]. intros Hb. apply in_app_or in Hb. destruct Hb as [Hb|Hb]; [|right; apply IH; assumption]. left.
    destruct (utf8_first x Sx) as (b0 & d & E0 & K). rewrite E0 in Hb.
    destruct (Z.ltb_spec (byte_to_Z b0) 128) as [L|L].
    - destruct (K L) as [-> V]. destruct Hb as [->|[]]. lia.
    - exfalso. assert (G : forall y, In y (b0 :: d) -> 128 <= byte_to_Z y).
      { rewrite <- E0. unfold is_scalar in Sx. intros y Hy. unfold utf8_char in *.
        assert (Bc : 0 <= Z.of_N x < 0x110000) by lia.
        assert (M : forall z, 0 <= z mod 64 < 64) by (intros; apply Z.mod_pos_bound; lia).
        destruct (Z.of_N x <? 128) eqn:E1; [injection E0 as E0 _; rewrite <- E0, Z_to_byte_small in L by lia; lia|].
        assert (D1 : Z.of_N x < 2048 -> 0 <= Z.of_N x / 64 < 32) by (intros; split; [apply Z.div_pos; lia|apply Z.div_lt_upper_bound; lia]).
        assert (D2 : Z.of_N x < 65536 -> 0 <= Z.of_N x / 4096 < 16) by (intros; split; [apply Z.div_pos; lia|apply Z.div_lt_upper_bound; lia]).
        assert (D3 : 0 <= Z.of_N x / 262144 < 8) by (split; [apply Z.div_pos; lia|apply Z.div_lt_upper_bound; lia]).
        pose proof (M (Z.of_N x)). pose proof (M (Z.of_N x / 64)). pose proof (M (Z.of_N x / 4096)).
        destruct (Z.of_N x <? 2048) eqn:E2; [|destruct (Z.of_N x <? 65536) eqn:E3]; cbn [In] in Hy;
          repeat (destruct Hy as [<-|Hy]; [rewrite Z_to_byte_small by lia; lia|]); destruct Hy. }
      pose proof (G b Hb). lia. }
  clear P.
  unfold Color_of_text in H.
  destruct (zlen (utf8_encode t) =? 7) eqn:E7; [|destruct (zlen (utf8_encode t) =? 9) eqn:E9; [|discriminate]].
  - apply Z.eqb_eq in E7. unfold zlen in E7.
    remember (utf8_encode t) as l eqn:El.
    destruct l as [|h [|r1 [|r2 [|g1 [|g2 [|b1 [|b2 [|? ?]]]]]]]]; cbn [List.length] in E7; try lia. clear E7.
    unfold str_slice in H.
    set (B := is_char_boundary _) in H.
    destruct ((0 <=? 1) && B 0 && B 1); [|discriminate].
    change (firstn (Z.to_nat (1 - 0)) (skipn (Z.to_nat 0) [h; r1; r2; g1; g2; b1; b2])) with [h] in H. cbn [rbind] in H.
    destruct (byte_to_Z h =? 35) eqn:Eh; [|discriminate]. cbn [negb] in H.
    destruct ((1 <=? 3) && B 1 && B 3); [|discriminate].
    change (firstn (Z.to_nat (3 - 1)) (skipn (Z.to_nat 1) [h; r1; r2; g1; g2; b1; b2])) with [r1; r2] in H. cbn [rbind] in H.
    destruct (u8_from_hex [r1; r2]) as [xr|] eqn:Er; [|discriminate]. cbn [rbind] in H.
    destruct ((3 <=? 5) && B 3 && B 5); [|discriminate].
    change (firstn (Z.to_nat (5 - 3)) (skipn (Z.to_nat 3) [h; r1; r2; g1; g2; b1; b2])) with [g1; g2] in H. cbn [rbind] in H.
    destruct (u8_from_hex [g1; g2]) as [xg|] eqn:Eg; [|discriminate]. cbn [rbind] in H.
    destruct ((5 <=? 7) && B 5 && B 7); [|discriminate].
    change (firstn (Z.to_nat (7 - 5)) (skipn (Z.to_nat 5) [h; r1; r2; g1; g2; b1; b2])) with [b1; b2] in H. cbn [rbind] in H.
    destruct (u8_from_hex [b1; b2]) as [xb|] eqn:Eb; [|discriminate]. cbn [rbind] in H. injection H as <-.
    apply from_hex_pair in Er; [|apply P'; cbn; tauto]. apply from_hex_pair in Eg; [|apply P'; cbn; tauto].
    apply from_hex_pair in Eb; [|apply P'; cbn; tauto].
    destruct Er as (A1 & A2 & Pr), Eg as (A3 & A4 & Pg), Eb as (A5 & A6 & Pb). apply Z.eqb_eq in Eh.
    assert (T : t = map Byte.to_N [h; r1; r2; g1; g2; b1; b2]).
    { rewrite El. apply utf8_all_ascii; [exact S|]. rewrite <- El. repeat constructor; try assumption. lia. }
    exists [Byte.to_N r1; Byte.to_N r2], [Byte.to_N g1; Byte.to_N g2], [Byte.to_N b1; Byte.to_N b2].
    repeat (split; [assumption|]). left. split; [|reflexivity]. rewrite T. cbn [map]. rewrite (hash_byte h Eh). reflexivity.
  - apply Z.eqb_eq in E9. unfold zlen in E9.
    remember (utf8_encode t) as l eqn:El.
    destruct l as [|u1 [|u2 [|h [|r1 [|r2 [|g1 [|g2 [|b1 [|b2 [|? ?]]]]]]]]]]; cbn [List.length] in E9; try lia. clear E9 E7.
    unfold str_slice in H.
    set (B := is_char_boundary _) in H.
    destruct ((2 <=? 3) && B 2 && B 3); [|discriminate].
    change (firstn (Z.to_nat (3 - 2)) (skipn (Z.to_nat 2) [u1; u2; h; r1; r2; g1; g2; b1; b2])) with [h] in H. cbn [rbind] in H.
    destruct (byte_to_Z h =? 35) eqn:Eh; [|discriminate]. cbn [negb] in H.
    destruct ((0 <=? 2) && B 0 && B 2); [|discriminate].
    change (firstn (Z.to_nat (2 - 0)) (skipn (Z.to_nat 0) [u1; u2; h; r1; r2; g1; g2; b1; b2])) with [u1; u2] in H. cbn [rbind] in H.
    destruct (u8_from_hex [u1; u2]) as [xu|] eqn:Eu; [|discriminate]. cbn [rbind] in H.
    destruct ((3 <=? 5) && B 3 && B 5); [|discriminate].
    change (firstn (Z.to_nat (5 - 3)) (skipn (Z.to_nat 3) [u1; u2; h; r1; r2; g1; g2; b1; b2])) with [r1; r2] in H. cbn [rbind] in H.
    destruct (u8_from_hex [r1; r2]) as [xr|] eqn:Er; [|discriminate]. cbn [rbind] in H.
    destruct ((5 <=? 7) && B 5 && B 7); [|discriminate].
    change (firstn (Z.to_nat (7 - 5)) (skipn (Z.to_nat 5) [u1; u2; h; r1; r2; g1; g2; b1; b2])) with [g1; g2] in H. cbn [rbind] in H.
    destruct (u8_from_hex [g1; g2]) as [xg|] eqn:Eg; [|discriminate]. cbn [rbind] in H.
    destruct ((7 <=? 9) && B 7 && B 9); [|discriminate].
    change (firstn (Z.to_nat (9 - 7)) (skipn (Z.to_nat 7) [u1; u2; h; r1; r2; g1; g2; b1; b2])) with [b1; b2] in H. cbn [rbind] in H.
    destruct (u8_from_hex [b1; b2]) as [xb|] eqn:Eb; [|discriminate]. cbn [rbind] in H. injection H as <-.
    apply from_hex_pair in Eu; [|apply P'; cbn; tauto]. apply from_hex_pair in Er; [|apply P'; cbn; tauto]. apply from_hex_pair in Eg; [|apply P'; cbn; tauto].
    apply from_hex_pair in Eb; [|apply P'; cbn; tauto].
    destruct Eu as (A7 & A8 & Pu), Er as (A1 & A2 & Pr), Eg as (A3 & A4 & Pg), Eb as (A5 & A6 & Pb). apply Z.eqb_eq in Eh.
    assert (T : t = map Byte.to_N [u1; u2; h; r1; r2; g1; g2; b1; b2]).
    { rewrite El. apply utf8_all_ascii; [exact S|]. rewrite <- El. repeat constructor; try assumption. lia. }
    exists [Byte.to_N r1; Byte.to_N r2], [Byte.to_N g1; Byte.to_N g2], [Byte.to_N b1; Byte.to_N b2].
    repeat (split; [assumption|]). right. exists [Byte.to_N u1; Byte.to_N u2]. split; [assumption|].
    rewrite T. cbn [map]. rewrite (hash_byte h Eh). reflexivity.
Qed.

(** ** Packed integers *)
Lemma byte_of b x : byte_to_Z b = x mod 256 -> Z_to_byte x = b.
Proof. intros H. apply byte_to_Z_inj. rewrite byte_to_Z_to_byte. auto. Qed.

Lemma rgb_of_color c : Color_from_rgb (Color_to_rgb c) = mkColor (c_r c) (c_g c) (c_b c) x00.
Proof.
  pose proof (byte_to_Z_range (c_r c)). pose proof (byte_to_Z_range (c_g c)). pose proof (byte_to_Z_range (c_b c)).
  unfold Color_from_rgb, Color_to_rgb. f_equal; apply byte_of; Z.div_mod_to_equations; lia.
Qed.
Lemma color_of_rgb n : 0 <= n < 4294967296 -> Color_to_rgb (Color_from_rgb n) = n mod 16777216.
Proof.
  intros H. unfold Color_from_rgb, Color_to_rgb. cbn [c_r c_g c_b]. rewrite !byte_to_Z_to_byte. Z.div_mod_to_equations; lia.
Qed.
Lemma win_of_color c : Color_from_win_color (Color_to_win_color c) = c.
Proof.
  pose proof (byte_to_Z_range (c_r c)). pose proof (byte_to_Z_range (c_g c)). pose proof (byte_to_Z_range (c_b c)). pose proof (byte_to_Z_range (c_unused c)).
  unfold Color_from_win_color, Color_to_win_color. destruct c as [r g b u]. cbn [c_r c_g c_b c_unused] in *. f_equal; apply byte_of; Z.div_mod_to_equations; lia.
Qed.
Lemma color_of_win n : 0 <= n < 4294967296 -> Color_to_win_color (Color_from_win_color n) = n.
Proof.
  intros H. unfold Color_from_win_color, Color_to_win_color. cbn [c_r c_g c_b c_unused]. rewrite !byte_to_Z_to_byte. Z.div_mod_to_equations; lia.
Qed.

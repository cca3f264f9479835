(** Lemmas about Base.v *)
From Verif Require Import Base.
From Coq Require Import Strings.Byte ZifyBool ZifyNat ZifyN.
Ltac Zify.zify_post_hook ::= Z.div_mod_to_equations.

Lemma zlen_nonneg {A} (l : list A) : 0 <= zlen l.
Proof. unfold zlen; lia. Qed.
Lemma zlen_app {A} (a b : list A) : zlen (a ++ b) = zlen a + zlen b.
Proof. unfold zlen; rewrite app_length; lia. Qed.
Lemma zlen_nil {A} : zlen (@nil A) = 0. Proof. reflexivity. Qed.
Lemma zlen_cons {A} (x : A) l : zlen (x :: l) = 1 + zlen l.
Proof. unfold zlen; cbn [List.length]; lia. Qed.
Lemma zlen_map {A B} (f : A -> B) l : zlen (map f l) = zlen l.
Proof. unfold zlen; rewrite map_length; reflexivity. Qed.
Lemma zlen_zero {A} (l : list A) : zlen l = 0 -> l = [].
Proof. destruct l; [reflexivity|]. rewrite zlen_cons. pose proof (zlen_nonneg l). lia. Qed.

Lemma byte_to_Z_range b : 0 <= byte_to_Z b < 256.
Proof. unfold byte_to_Z. pose proof (Byte.to_N_bounded b). lia. Qed.

Lemma Z_to_byte_to_Z b : Z_to_byte (byte_to_Z b) = b.
Proof. destruct b; reflexivity. Qed.

Lemma byte_to_Z_to_byte z : byte_to_Z (Z_to_byte z) = z mod 256.
Proof.
  unfold Z_to_byte, byte_to_Z.
  destruct (Byte.of_N (Z.to_N (z mod 256))) as [b|] eqn:E.
  - apply Byte.to_of_N in E. rewrite E. pose proof (Z.mod_pos_bound z 256). lia.
  - exfalso. apply Byte.of_N_None_iff in E.
    pose proof (Z.mod_pos_bound z 256). lia.
Qed.

Lemma Z_to_byte_small z : 0 <= z < 256 -> byte_to_Z (Z_to_byte z) = z.
Proof. intros H. rewrite byte_to_Z_to_byte. apply Z.mod_small. lia. Qed.

Lemma byte_to_Z_inj a b : byte_to_Z a = byte_to_Z b -> a = b.
Proof. intros H. rewrite <- (Z_to_byte_to_Z a), <- (Z_to_byte_to_Z b), H. reflexivity. Qed.

Lemma w32_to_Z_range w : 0 <= w32_to_Z w < 4294967296.
Proof.
  unfold w32_to_Z. pose proof (byte_to_Z_range (w32_0 w)). pose proof (byte_to_Z_range (w32_1 w)).
  pose proof (byte_to_Z_range (w32_2 w)). pose proof (byte_to_Z_range (w32_3 w)). lia.
Qed.
Lemma w16_to_Z_range w : 0 <= w16_to_Z w < 65536.
Proof.
  unfold w16_to_Z. pose proof (byte_to_Z_range (w16_0 w)). pose proof (byte_to_Z_range (w16_1 w)). lia.
Qed.

Lemma w32_to_Z_of z : w32_to_Z (Z_to_w32 z) = z mod 4294967296.
Proof.
  unfold w32_to_Z, Z_to_w32; cbn [w32_0 w32_1 w32_2 w32_3]. rewrite !byte_to_Z_to_byte. lia.
Qed.
Lemma w32_to_Z_small z : 0 <= z < 4294967296 -> w32_to_Z (Z_to_w32 z) = z.
Proof. intros H. rewrite w32_to_Z_of. apply Z.mod_small; lia. Qed.
Lemma w16_to_Z_of z : w16_to_Z (Z_to_w16 z) = z mod 65536.
Proof.
  unfold w16_to_Z, Z_to_w16; cbn [w16_0 w16_1]. rewrite !byte_to_Z_to_byte. lia.
Qed.
Lemma w16_to_Z_small z : 0 <= z < 65536 -> w16_to_Z (Z_to_w16 z) = z.
Proof. intros H. rewrite w16_to_Z_of. apply Z.mod_small; lia. Qed.

Lemma Z_to_w32_to_Z w : Z_to_w32 (w32_to_Z w) = w.
Proof.
  destruct w as [a b c d]. unfold Z_to_w32.
  assert (E : forall x y, byte_to_Z y = x mod 256 -> Z_to_byte x = y).
  { intros x y H. apply byte_to_Z_inj. rewrite byte_to_Z_to_byte. lia. }
  pose proof (byte_to_Z_range a). pose proof (byte_to_Z_range b).
  pose proof (byte_to_Z_range c). pose proof (byte_to_Z_range d).
  unfold w32_to_Z; cbn [w32_0 w32_1 w32_2 w32_3].
  f_equal; apply E; lia.
Qed.
Lemma Z_to_w16_to_Z w : Z_to_w16 (w16_to_Z w) = w.
Proof.
  destruct w as [a b]. unfold Z_to_w16.
  assert (E : forall x y, byte_to_Z y = x mod 256 -> Z_to_byte x = y).
  { intros x y H. apply byte_to_Z_inj. rewrite byte_to_Z_to_byte. lia. }
  pose proof (byte_to_Z_range a). pose proof (byte_to_Z_range b).
  unfold w16_to_Z; cbn [w16_0 w16_1].
  f_equal; apply E; lia.
Qed.
Lemma w32_to_Z_inj a b : w32_to_Z a = w32_to_Z b -> a = b.
Proof. intros H. rewrite <- (Z_to_w32_to_Z a), <- (Z_to_w32_to_Z b), H. reflexivity. Qed.

Lemma byte_eqb_eq a b : Byte.eqb a b = true <-> a = b.
Proof.
  split; intros H.
  - apply Byte.byte_dec_bl, H.
  - apply Byte.byte_dec_lb, H.
Qed.

Lemma w32_eqb_eq a b : w32_eqb a b = true <-> a = b.
Proof.
  destruct a, b; unfold w32_eqb; cbn.
  rewrite !andb_true_iff, !byte_eqb_eq. split.
  - intros [[[-> ->] ->] ->]; reflexivity.
  - intros H; inversion H; auto.
Qed.

Lemma zlen_w32_bytes w : zlen (w32_bytes w) = 4. Proof. reflexivity. Qed.
Lemma zlen_w16_bytes w : zlen (w16_bytes w) = 2. Proof. reflexivity. Qed.
Lemma zlen_w64_bytes w : zlen (w64_bytes w) = 8. Proof. reflexivity. Qed.

Lemma skipn_zlen {A} (a b : list A) : skipn (Z.to_nat (zlen a)) (a ++ b) = b.
Proof. unfold zlen. rewrite Nat2Z.id. rewrite skipn_app, skipn_all, Nat.sub_diag. reflexivity. Qed.
Lemma firstn_zlen {A} (a b : list A) : firstn (Z.to_nat (zlen a)) (a ++ b) = a.
Proof. unfold zlen. rewrite Nat2Z.id. rewrite firstn_app, firstn_all, Nat.sub_diag. cbn. apply app_nil_r. Qed.

Lemma slice_mid {A} (pre x rest : list A) n : n = zlen x -> slice (pre ++ x ++ rest) (zlen pre) n = Ok x.
Proof.
  intros ->. unfold slice. rewrite !zlen_app.
  pose proof (zlen_nonneg pre). pose proof (zlen_nonneg x). pose proof (zlen_nonneg rest).
  replace ((0 <=? zlen pre) && (0 <=? zlen x) && (zlen pre + zlen x <=? zlen pre + (zlen x + zlen rest))) with true
    by lia.
  rewrite skipn_zlen, firstn_zlen. reflexivity.
Qed.

Lemma slice_ok_inv {A} (d : list A) p n x :
  slice d p n = Ok x -> 0 <= p /\ 0 <= n /\ p + n <= zlen d /\ zlen x = n /\
    exists a b, d = a ++ x ++ b /\ zlen a = p.
Proof.
  unfold slice. destruct ((0 <=? p) && (0 <=? n) && (p + n <=? zlen d)) eqn:E; [|discriminate].
  intros [= <-].
  assert (H1 : 0 <= p /\ 0 <= n /\ p + n <= zlen d) by lia. destruct H1 as (H1 & H2 & H3).
  assert (L : zlen (firstn (Z.to_nat n) (skipn (Z.to_nat p) d)) = n).
  { unfold zlen in *. rewrite firstn_length, skipn_length. lia. }
  repeat split; auto.
  exists (firstn (Z.to_nat p) d), (skipn (Z.to_nat n) (skipn (Z.to_nat p) d)).
  rewrite !firstn_skipn. split; [reflexivity|]. unfold zlen in *. rewrite firstn_length. lia.
Qed.

Lemma is_nul_byte b : is_nul b = true <-> b = x00.
Proof. destruct b; cbn; split; congruence. Qed.

Lemma encode_decode_latin1 d : encode_latin1_lossy (decode_latin1 d) = Ok d.
Proof.
  induction d as [|b d IH]; [reflexivity|].
  cbn [decode_latin1 map encode_latin1_lossy]. change (map Byte.to_N d) with (decode_latin1 d).
  pose proof (Byte.to_N_bounded b).
  replace (Byte.to_N b <? 256)%N with true by lia.
  rewrite Byte.of_to_N. rewrite IH. reflexivity.
Qed.

(** A string of Latin-1 characters is encoded by exactly one byte per character. *)
Lemma latin1_encode_ok s : forallb (fun c => (c <? 256)%N) s = true ->
  exists d, encode_latin1_lossy s = Ok d /\ decode_latin1 d = s /\ zlen d = zlen s.
Proof.
  induction s as [|c s IH]; intros H.
  - exists []; repeat split.
  - cbn [forallb] in H. apply andb_true_iff in H. destruct H as [Hc Hs].
    destruct (IH Hs) as (d & E & D & L).
    destruct (Byte.of_N c) as [b|] eqn:B.
    + exists (b :: d). cbn [encode_latin1_lossy]. rewrite Hc, B, E. cbn [rbind].
      repeat split.
      * cbn. rewrite <- D. f_equal. apply Byte.to_of_N in B. exact B.
      * rewrite !zlen_cons. lia.
    + apply Byte.of_N_None_iff in B. lia.
Qed.

Lemma latin1_ok_lt256 s : latin1_ok s = true -> forallb (fun c => (c <? 256)%N) s = true.
Proof.
  unfold latin1_ok. rewrite !forallb_forall. intros H x Hx. specialize (H x Hx). lia.
Qed.

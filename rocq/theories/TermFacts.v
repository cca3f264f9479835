(** Termination of every record reader, and what the values that were read look like. *)
From Verif Require Import Base Text Biff Quantize Common BaseFacts TextFacts BiffFacts CommonFacts.

(** ** Termination *)
(** The reader is not before [B], and neither is the end of its current record. *)
Definition Safe (B : Z) (r : rd) : Prop := B <= r_pos r /\ B <= r_pos r + r_rem r.

(** From a safe reader, [m] either fails for a reason other than lack of fuel, or ends in a safe reader. *)
Definition Term {A} (m : rd_M A) : Prop :=
  forall B r, 0 <= B -> Safe B r ->
    match m r with
    | Ok (_, r') => Safe B r' /\ r_data r' = r_data r
    | Fail f => f <> OutOfFuelF
    end.

Lemma Term_ret {A} (x : A) : Term (rret x).
Proof. intros B r HB H. cbn. auto. Qed.
Lemma Term_panic {A} : Term (@rpanic A).
Proof. intros B r HB H. cbn. discriminate. Qed.
Lemma Term_bind {A B} (m : rd_M A) (k : A -> rd_M B) : Term m -> (forall x, Term (k x)) -> Term (rbindM m k).
Proof.
  intros Hm Hk b r HB H. unfold rbindM. specialize (Hm b r HB H).
  destruct (m r) as [[x r']|f]; [|exact Hm]. destruct Hm as [H1 H2].
  specialize (Hk x b r' HB H1). destruct (k x r') as [[y r'']|f]; [|exact Hk]. destruct Hk; split; congruence.
Qed.
Definition no_oof {A} (x : res A) : Prop := x <> OutOfFuel.
Lemma Term_lift {A} (x : res A) : no_oof x -> Term (rlift x).
Proof.
  intros H B r HB HS. unfold rlift. destruct x; [auto|]. intros ->. apply H. reflexivity.
Qed.

Lemma slice_no_oof {A} (d : list A) p n : no_oof (slice d p n).
Proof. unfold slice, no_oof. destruct (_ && _); discriminate. Qed.
Lemma slice_nonneg {A} (d : list A) p n b : slice d p n = Ok b -> 0 <= p /\ 0 <= n /\ p + n <= zlen d.
Proof. unfold slice. destruct (_ && _) eqn:E; [|discriminate]. intros _. lia. Qed.

Lemma Term_take_sub n : 0 <= n -> Term (x <- take n ;; sub_rem n ;;; rret x).
Proof.
  intros Hn B r HB [H1 H2]. unfold rbindM, take. pose proof (slice_no_oof (r_data r) (r_pos r) n) as HO.
  destruct (slice _ _ _) as [b|f] eqn:E; [|intros ->; apply HO; reflexivity].
  unfold sub_rem, set_pos. cbn. destruct (_ && _); [discriminate|]. unfold Safe; cbn. repeat split; lia.
Qed.

Lemma Term_take n : 0 <= n -> Term (take n).
Proof.
  intros Hn B r HB [H1 H2]. unfold take. pose proof (slice_no_oof (r_data r) (r_pos r) n) as HO.
  destruct (slice _ _ _) as [b|f]; [|intros ->; apply HO; reflexivity].
  unfold Safe, set_pos; cbn. repeat split; lia.
Qed.

(** A monadic step that adds [k] to the position and takes [k] off the remaining count. *)
Definition Moves {A} (m : rd_M A) (k : Z) : Prop :=
  forall r, match m r with
            | Ok (_, r') => r_pos r' = r_pos r + k /\ r_rem r' = r_rem r /\ r_data r' = r_data r
            | Fail f => f <> OutOfFuelF
            end.
Lemma Moves_take n : Moves (take n) n.
Proof.
  intros r. unfold take. pose proof (slice_no_oof (r_data r) (r_pos r) n) as HO.
  destruct (slice _ _ _) as [b|f]; [|intros ->; apply HO; reflexivity]. cbn. auto.
Qed.
Lemma Moves_map {A B} (m : rd_M A) (f : A -> res B) k : (forall x, no_oof (f x)) -> Moves m k ->
  Moves (x <- m ;; rlift (f x)) k.
Proof.
  intros Hf Hm r. unfold rbindM, rlift. specialize (Hm r). destruct (m r) as [[x r']|g]; [|exact Hm].
  specialize (Hf x). destruct (f x); [exact Hm|]. intros ->; apply Hf; reflexivity.
Qed.
Lemma Term_moves_sub {A} (m : rd_M A) k : 0 <= k -> Moves m k -> Term (x <- m ;; sub_rem k ;;; rret x).
Proof.
  intros Hk Hm B r HB [H1 H2]. unfold rbindM. specialize (Hm r). destruct (m r) as [[x r']|g]; [|exact Hm].
  destruct Hm as (E1 & E2 & E3). unfold sub_rem. destruct (_ && _); [discriminate|].
  unfold Safe, set_rem; cbn. rewrite E1, E2, E3. repeat split; lia.
Qed.
Lemma Term_moves {A} (m : rd_M A) k : 0 <= k -> Moves m k -> Term m.
Proof.
  intros Hk Hm B r HB [H1 H2]. specialize (Hm r). destruct (m r) as [[x r']|g]; [|exact Hm].
  destruct Hm as (E1 & E2 & E3). unfold Safe. rewrite E1, E2, E3. repeat split; lia.
Qed.

Lemma w32_of_no_oof b : no_oof (w32_of b).
Proof. unfold no_oof, w32_of. repeat (destruct b as [|? b]; try discriminate). Qed.
Lemma w16_of_no_oof b : no_oof (w16_of b).
Proof. unfold no_oof, w16_of. repeat (destruct b as [|? b]; try discriminate). Qed.
Lemma byte_of_no_oof b : no_oof (byte_of b).
Proof. unfold no_oof, byte_of. repeat (destruct b as [|? b]; try discriminate). Qed.

Lemma Term_get_u8_nru : Term get_u8_no_remaining_update.
Proof. apply (Term_moves _ 1); [lia|]. apply Moves_map; [apply byte_of_no_oof|apply Moves_take]. Qed.
Lemma Term_get_u16_nru : Term get_u16_no_remaining_update.
Proof. apply (Term_moves _ 2); [lia|]. apply Moves_map; [apply w16_of_no_oof|apply Moves_take]. Qed.
Lemma Moves_get_u32_nru : Moves get_u32_no_remaining_update 4.
Proof. apply Moves_map; [apply w32_of_no_oof|apply Moves_take]. Qed.
Lemma Term_get_u32_nru : Term get_u32_no_remaining_update.
Proof. apply (Term_moves _ 4); [lia|apply Moves_get_u32_nru]. Qed.
Lemma Term_get_u8 : Term get_u8.
Proof. apply Term_moves_sub; [lia|]. apply Moves_map; [apply byte_of_no_oof|apply Moves_take]. Qed.
Lemma Term_get_u16 : Term get_u16.
Proof. apply Term_moves_sub; [lia|]. apply Moves_map; [apply w16_of_no_oof|apply Moves_take]. Qed.
Lemma Term_get_u32 : Term get_u32.
Proof. apply Term_moves_sub; [lia|apply Moves_get_u32_nru]. Qed.
Lemma Term_get_32 : Term get_32.
Proof. apply Term_get_u32. Qed.

Lemma Term_fixed {A} n (f : bytes -> res A) : 0 <= n -> (forall b, no_oof (f b)) ->
  Term (b <- take n ;; sub_rem n ;;; rlift (f b)).
Proof.
  intros Hn Hf B r HB HS. pose proof (Term_take_sub n Hn B r HB HS) as H. revert H.
  unfold rbindM, rret. destruct (take n r) as [[b r']|]; [|auto].
  destruct (sub_rem n r') as [[u r'']|]; [|auto]. intros H. unfold rlift.
  specialize (Hf b). destruct (f b); [exact H|]. intros ->; apply Hf; reflexivity.
Qed.
Lemma Term_get_f32 : Term get_f32.
Proof. apply Term_fixed; [lia|apply w32_of_no_oof]. Qed.
Lemma Term_get_i32 : Term get_i32.
Proof. apply Term_fixed; [lia|apply w32_of_no_oof]. Qed.
Lemma Term_get_bool : Term get_bool.
Proof. apply (Term_fixed 4 (fun b => Ok (negb (forallb is_nul b)))); [lia|discriminate]. Qed.

Lemma scan_no_oof d p n : no_oof (scan_str d p n).
Proof. unfold scan_str, no_oof. repeat match goal with |- context [if ?c then _ else _] => destruct c end; discriminate. Qed.
Lemma Moves_scan n : Moves (scan n) n.
Proof.
  intros r. unfold scan. pose proof (scan_no_oof (r_data r) (r_pos r) n) as HO.
  destruct (scan_str _ _ _) as [b|f]; [cbn; auto|intros ->; apply HO; reflexivity].
Qed.
Lemma scan_nonneg n r x : scan n r = Ok x -> 0 <= n.
Proof.
  unfold scan, scan_str. destruct (_ || _) eqn:E; [discriminate|]. intros _. lia.
Qed.
Lemma Term_scan n : Term (scan n).
Proof.
  intros B r HB HS. destruct (scan n r) as [[x r']|f] eqn:E.
  - pose proof (scan_nonneg _ _ _ E) as Hn. pose proof (Term_moves _ n Hn (Moves_scan n) B r HB HS) as H. rewrite E in H. exact H.
  - pose proof (Moves_scan n r) as H. rewrite E in H. exact H.
Qed.
Lemma w32_to_Z_nonneg x : 0 <= w32_to_Z x.
Proof.
  destruct x as [a b c d]. unfold w32_to_Z. cbn.
  pose proof (byte_to_Z_range a). pose proof (byte_to_Z_range b). pose proof (byte_to_Z_range c). pose proof (byte_to_Z_range d).
  lia.
Qed.

Lemma Term_get_str n : Term (get_str n).
Proof.
  intros B r HB [H1 H2]. unfold get_str, rbindM. pose proof (Moves_scan n r) as H.
  destruct (scan n r) as [[x r']|f] eqn:E; [|exact H]. pose proof (scan_nonneg _ _ _ E) as Hn.
  destruct H as (E1 & E2 & E3). unfold sub_remaining. destruct (_ && _); [discriminate|].
  unfold rret, Safe, set_rem; cbn. rewrite E1, E2, E3. repeat split; lia.
Qed.
Lemma Term_get_string : Term get_string.
Proof. apply Term_bind; [apply Term_get_u32|intros; apply Term_get_str]. Qed.
Lemma Term_get_str_nru n : Term (get_str_no_remaining_update n).
Proof. apply Term_bind; [apply Term_scan|intros; apply Term_ret]. Qed.
Lemma Term_get_swe_nru n : Term (get_str_with_encoding_no_remaining_update n).
Proof. apply Term_bind; [apply Term_scan|intros; apply Term_ret]. Qed.
Lemma Term_get_string_nru : Term get_string_no_remaining_update.
Proof. apply Term_bind; [apply Term_get_u32_nru|intros; apply Term_get_str_nru]. Qed.

Lemma unwrap_no_oof {A} (x : res A) : no_oof x -> no_oof (unwrap x).
Proof. unfold no_oof. destruct x as [|[]]; cbn; congruence. Qed.
Lemma from_utf16_no_oof us : no_oof (from_utf16 us).
Proof.
  unfold no_oof. assert (G : forall n us, (List.length us <= n)%nat -> from_utf16 us <> OutOfFuel).
  { induction n as [|n IH]; intros [|u us'] H; cbn [from_utf16 List.length] in *; try discriminate; try lia.
    destruct (in_range _ _ u).
    - destruct (u <? 56320); [|discriminate]. destruct us' as [|u2 us'']; [discriminate|].
      destruct (in_range _ _ u2); [|discriminate]. cbn [List.length] in H.
      assert (H' : from_utf16 us'' <> OutOfFuel) by (apply IH; lia).
      destruct (from_utf16 us''); cbn; [discriminate|exact H'].
    - assert (H' : from_utf16 us' <> OutOfFuel) by (apply IH; lia).
      destruct (from_utf16 us'); cbn; [discriminate|exact H']. }
  apply (G _ us (le_n _)).
Qed.
Lemma decode_utf16le_no_oof b : no_oof (decode_utf16le b).
Proof. unfold decode_utf16le. destruct (negb _); [discriminate|apply from_utf16_no_oof]. Qed.

Lemma Term_get_wide_string : Term get_wide_string.
Proof.
  apply Term_bind; [apply Term_get_u32|]. intros n.
  intros B r HB [H1 H2]. unfold rbindM. pose proof (Moves_take (w32_to_Z n) r) as H.
  destruct (take _ r) as [[b r']|f]; [|exact H]. destruct H as (E1 & E2 & E3).
  unfold rlift. pose proof (unwrap_no_oof _ (decode_utf16le_no_oof b)) as HO.
  destruct (unwrap _) as [s|f]; [|intros ->; apply HO; reflexivity].
  unfold sub_rem. destruct (_ && _); [discriminate|].
  pose proof (w32_to_Z_nonneg n).
  unfold rret, Safe, set_rem; cbn. rewrite E1, E2, E3. repeat split; lia.
Qed.

Lemma Term_get_record_data : Term (get_record_data false).
Proof.
  intros B r HB [H1 H2]. unfold get_record_data. destruct (_ && _); [discriminate|].
  pose proof (slice_no_oof (r_data r) (r_pos r) (r_pos r + r_rem r - r_pos r)) as HO.
  destruct (slice _ _ _) as [b|f]; [|intros ->; apply HO; reflexivity].
  unfold Safe, set_rem, set_pos; cbn. repeat split; lia.
Qed.
Lemma Term_skip_tag : Term skip_tag.
Proof. intros B r HB [H1 H2]. unfold skip_tag, Safe, set_rem, set_pos; cbn. repeat split; lia. Qed.
Lemma Term_get_data_nru : Term get_data_no_remaining_update.
Proof.
  apply Term_bind; [apply Term_get_u32_nru|]. intros n. apply Term_bind; [apply Term_take, w32_to_Z_nonneg|].
  intros b B r HB [H1 H2]. unfold Safe, set_rem; cbn. repeat split; lia.
Qed.
Lemma Term_data_until tag : Term (data_until tag).
Proof.
  intros B r HB [H1 H2]. unfold data_until. destruct (find_tag _ _) as [i|]; [|discriminate].
  pose proof (slice_no_oof (r_data r) (r_pos r) (r_pos r + i - 4 - r_pos r)) as HO.
  destruct (slice _ _ _) as [b|f] eqn:E; [|intros ->; apply HO; reflexivity].
  apply slice_nonneg in E. unfold Safe, set_rem, set_pos; cbn. repeat split; lia.
Qed.
Lemma Term_get_data n : 0 <= n -> Term (get_data n).
Proof.
  intros Hn. apply Term_bind; [apply Term_take; exact Hn|].
  intros b B r HB [H1 H2]. unfold Safe, set_rem; cbn. repeat split; lia.
Qed.

(** One record header: the position moves on by at least eight bytes and stays within the data. *)
Lemma next_progress B r : 0 <= B -> Safe B r ->
  match next r with
  | Ok (_, r') => Safe (B + 8) r' /\ r_pos r' <= zlen (r_data r') + 4 /\ r_data r' = r_data r
  | Fail f => f <> OutOfFuelF
  end.
Proof.
  intros HB [H1 H2]. unfold next.
  assert (HS : match (if r_rem r =? 0 then Ok (tt, r) else skip (r_rem r) r) with
               | Ok (_, r1) => B <= r_pos r1 /\ r_data r1 = r_data r
               | Fail f => f <> OutOfFuelF
               end).
  { destruct (r_rem r =? 0) eqn:E; [auto|]. unfold skip. destruct (_ <? 0); [discriminate|].
    unfold sub_rem. destruct (_ && _); [discriminate|]. unfold set_pos, set_rem; cbn. split; [lia|reflexivity]. }
  destruct (if r_rem r =? 0 then _ else _) as [[u r1]|f]; [|exact HS].
  destruct HS as [HB1 HD1]. destruct (_ <=? _); [discriminate|]. unfold rbindM.
  pose proof (Moves_get_u32_nru r1) as HM. destruct (get_u32_no_remaining_update r1) as [[n r2]|f]; [|exact HM].
  destruct HM as (E1 & E2 & E3).
  set (r3 := set_rem r2 (w32_to_Z n)). pose proof (Moves_scan 4 r3) as HM.
  destruct (scan 4 r3) as [[b r4]|f] eqn:Es; [|exact HM]. destruct HM as (F1 & F2 & F3).
  assert (HP : r_pos r4 <= zlen (r_data r4) + 4).
  { unfold scan in Es. destruct (scan_str _ _ _) as [b'|] eqn:Esc; [|discriminate].
    rewrite F1, F3. unfold scan_str in Esc. destruct (_ || _) eqn:Eo; [discriminate|]. lia. }
  unfold sub_remaining. destruct (_ && _) eqn:Er; [discriminate|].
  unfold set_rem. cbn [r_data r_pos r_rem r_tag r_warn r_checked].
  pose proof (w32_to_Z_nonneg n) as Hn. unfold r3, set_rem in *. cbn [r_data r_pos r_rem r_tag r_warn r_checked] in *.
  destruct b as [|b0 bl]; [discriminate|].
  unfold set_rtag. cbn [r_data r_pos r_rem r_tag r_warn r_checked].
  destruct (_ && _ && _); [discriminate|]. unfold Safe. cbn [r_data r_pos r_rem r_tag r_warn r_checked].
  rewrite F1, F3 in *. rewrite E1, E3, HD1 in *. repeat split; lia.
Qed.

Lemma biff_loop_term {S} (h : string -> S -> rd_M S) : (forall t s, Term (h t s)) ->
  forall fuel s B r, 0 <= B -> Safe B r -> B <= zlen (r_data r) + 4 -> zlen (r_data r) + 4 < B + 8 * Z.of_nat fuel ->
    match biff_loop fuel h s r with
    | Ok (_, r') => Safe B r' /\ r_data r' = r_data r
    | Fail f => f <> OutOfFuelF
    end.
Proof.
  intros Hh. induction fuel as [|fuel IH]; intros s B r HB HS HL HF; [lia|].
  cbn [biff_loop]. unfold rbindM at 1. pose proof (next_progress B r HB HS) as HN.
  destruct (next r) as [[u r1]|f]; [|exact HN]. destruct HN as (HS1 & HP1 & HD1).
  assert (HW : Safe B r1) by (destruct HS1; split; lia).
  destruct (is_eof r1); [split; assumption|].
  unfold rbindM. pose proof (Hh (r_tag r1) s (B + 8) r1 ltac:(lia) HS1) as HT.
  destruct (h (r_tag r1) s r1) as [[s' r2]|f]; [|exact HT]. destruct HT as (HS2 & HD2).
  assert (HB8 : B + 8 <= zlen (r_data r2) + 4) by (rewrite HD2; destruct HS1; lia).
  specialize (IH s' (B + 8) r2 ltac:(lia) HS2 HB8 ltac:(rewrite HD2, HD1; lia)).
  destruct (biff_loop fuel h s' r2) as [[s'' r3]|f]; [|exact IH]. destruct IH as (HS3 & HD3).
  split; [destruct HS3; split; lia|congruence].
Qed.

Lemma Term_run_loop {S} (h : string -> S -> rd_M S) s : (forall t s, Term (h t s)) -> Term (run_loop h s).
Proof.
  intros Hh B r HB HS. unfold run_loop.
  assert (HS0 : Safe 0 r) by (destruct HS; split; lia).
  pose proof (zlen_nonneg (r_data r)) as HZ.
  destruct (Z_le_gt_dec B (zlen (r_data r) + 4)) as [HL|HL].
  - apply biff_loop_term; [exact Hh|exact HB|exact HS|exact HL|]. unfold loop_fuel. lia.
  - (* the reader is already past the end of its data: the first [next] panics *)
    unfold loop_fuel. destruct (Datatypes.S _) eqn:E; [lia|]. cbn [biff_loop]. unfold rbindM at 1.
    pose proof (next_progress B r HB HS) as HN. destruct (next r) as [[u r1]|f]; [|exact HN].
    exfalso. destruct HN as ([HS1 _] & HP1 & HD1). rewrite HD1 in HP1. lia.
Qed.

(** ** What was read *)
(** The value read by [m] from data of moderate size satisfies [P]. *)
Definition Yields {A} (m : rd_M A) (P : A -> Prop) : Prop :=
  forall r x r', fits (zlen (r_data r)) = true -> m r = Ok (x, r') -> P x /\ r_data r' = r_data r.

Lemma Yields_ret {A} (x : A) (P : A -> Prop) : P x -> Yields (rret x) P.
Proof. intros H r y r' _ E. injection E as <- <-. auto. Qed.
Lemma Yields_bind {A B} (m : rd_M A) (k : A -> rd_M B) (P : A -> Prop) (Q : B -> Prop) :
  Yields m P -> (forall x, P x -> Yields (k x) Q) -> Yields (rbindM m k) Q.
Proof.
  intros Hm Hk r y r' Hf E. unfold rbindM in E. destruct (m r) as [[x r1]|] eqn:E1; [|discriminate].
  destruct (Hm r x r1 Hf E1) as [HP HD]. destruct (Hk x HP r1 y r') as [HQ HD']; [rewrite HD; exact Hf|exact E|].
  split; [exact HQ|congruence].
Qed.
Lemma Yields_lift {A} (x : res A) (P : A -> Prop) : (forall y, x = Ok y -> P y) -> Yields (rlift x) P.
Proof.
  intros H r y r' _ E. unfold rlift in E. destruct x as [z|]; [|discriminate]. injection E as <- <-. auto.
Qed.
Lemma Yields_weaken {A} (m : rd_M A) (P Q : A -> Prop) : (forall x, P x -> Q x) -> Yields m P -> Yields m Q.
Proof. intros HPQ H r x r' Hf E. destruct (H r x r' Hf E). auto. Qed.

(** Any terminating reader leaves its data alone. *)
Definition Keeps {A} (m : rd_M A) : Prop := forall r x r', m r = Ok (x, r') -> r_data r' = r_data r.
Lemma Keeps_ret {A} (x : A) : Keeps (rret x).
Proof. intros r y r' E. injection E as <- <-. reflexivity. Qed.
Lemma Keeps_bind {A B} (m : rd_M A) (k : A -> rd_M B) : Keeps m -> (forall x, Keeps (k x)) -> Keeps (rbindM m k).
Proof.
  intros Hm Hk r y r' E. unfold rbindM in E. destruct (m r) as [[x r1]|] eqn:E1; [|discriminate].
  rewrite (Hk x _ _ _ E). apply (Hm _ _ _ E1).
Qed.
Lemma Keeps_lift {A} (x : res A) : Keeps (rlift x).
Proof. intros r y r' E. unfold rlift in E. destruct x; [|discriminate]. injection E as <- <-. reflexivity. Qed.
Lemma Keeps_take n : Keeps (take n).
Proof. intros r y r' E. unfold take in E. destruct (slice _ _ _); [|discriminate]. injection E as <- <-. reflexivity. Qed.
Lemma Keeps_scan n : Keeps (scan n).
Proof. intros r y r' E. unfold scan in E. destruct (scan_str _ _ _); [|discriminate]. injection E as <- <-. reflexivity. Qed.
Lemma Keeps_sub_rem n : Keeps (sub_rem n).
Proof. intros r y r' E. unfold sub_rem in E. destruct (_ && _); [discriminate|]. injection E as <- <-. reflexivity. Qed.
Lemma Keeps_sub_remaining n : Keeps (sub_remaining n).
Proof. intros r y r' E. unfold sub_remaining in E. destruct (_ && _); [discriminate|]. injection E as <- <-. reflexivity. Qed.
Lemma Keeps_skip_tag : Keeps skip_tag.
Proof. intros r y r' E. injection E as <- <-. reflexivity. Qed.
Lemma Keeps_skip_end_tag n : Keeps (skip_end_tag n).
Proof. intros r y r' E. injection E as <- <-. reflexivity. Qed.
Lemma Keeps_panic {A} : Keeps (@rpanic A).
Proof. intros r y r' E. discriminate. Qed.

Ltac keeps :=
  repeat match goal with
  | |- Keeps (rbindM _ _) => apply Keeps_bind; [|intros]
  | |- Keeps (rret _) => apply Keeps_ret
  | |- Keeps (rlift _) => apply Keeps_lift
  | |- Keeps (take _) => apply Keeps_take
  | |- Keeps (scan _) => apply Keeps_scan
  | |- Keeps (sub_rem _) => apply Keeps_sub_rem
  | |- Keeps (sub_remaining _) => apply Keeps_sub_remaining
  | |- Keeps skip_tag => apply Keeps_skip_tag
  end.
Lemma Keeps_f32 : Keeps get_f32. Proof. unfold get_f32. keeps. Qed.
Lemma Keeps_i32 : Keeps get_i32. Proof. unfold get_i32. keeps. Qed.
Lemma Keeps_u32_nru : Keeps get_u32_no_remaining_update. Proof. unfold get_u32_no_remaining_update. keeps. Qed.
Lemma Keeps_u32 : Keeps get_u32. Proof. unfold get_u32, get_u32_no_remaining_update. keeps. Qed.
Lemma Keeps_32 : Keeps get_32. Proof. exact Keeps_u32. Qed.
Lemma Keeps_u8_nru : Keeps get_u8_no_remaining_update. Proof. unfold get_u8_no_remaining_update. keeps. Qed.
Lemma Keeps_u16_nru : Keeps get_u16_no_remaining_update. Proof. unfold get_u16_no_remaining_update. keeps. Qed.
Lemma Keeps_u8 : Keeps get_u8. Proof. unfold get_u8, get_u8_no_remaining_update. keeps. Qed.
Lemma Keeps_u16 : Keeps get_u16. Proof. unfold get_u16, get_u16_no_remaining_update. keeps. Qed.
Lemma Keeps_bool : Keeps get_bool. Proof. unfold get_bool. keeps. Qed.
Lemma Keeps_v2 : Keeps Vertex2D_read. Proof. unfold Vertex2D_read, get_f32. keeps. Qed.
Lemma Keeps_v3 : Keeps Vertex3D_read. Proof. unfold Vertex3D_read, get_f32. keeps. Qed.
Lemma Keeps_v3u : Keeps Vertex3D_read_unpadded. Proof. unfold Vertex3D_read_unpadded, get_f32. keeps. Qed.
Lemma Keeps_v4 : Keeps Vertex4D_read. Proof. unfold Vertex4D_read, get_f32. keeps. Qed.
Lemma Keeps_color : Keeps Color_read. Proof. unfold Color_read, get_u8, get_u8_no_remaining_update. keeps. Qed.

Lemma Yields_any {A} (m : rd_M A) : Keeps m -> Yields m (fun _ => True).
Proof. intros H r x r' _ E. split; [exact I|apply (H _ _ _ E)]. Qed.

(** Strings read from a file are NUL-free Latin-1. *)
Lemma until_nul_no_nul b : forallb (fun c => negb (is_nul c)) (until_nul b) = true.
Proof. induction b as [|c b IH]; cbn; [reflexivity|]. destruct (is_nul c) eqn:E; [reflexivity|]. cbn. rewrite E. exact IH. Qed.
Lemma until_nul_len b : zlen (until_nul b) <= zlen b.
Proof. induction b as [|c b IH]; cbn; [lia|]. destruct (is_nul c); rewrite ?zlen_cons, ?zlen_nil; pose proof (zlen_nonneg b); lia. Qed.
Lemma decode_latin1_ok b : forallb (fun c => negb (is_nul c)) b = true -> latin1_ok (decode_latin1 b) = true.
Proof.
  unfold latin1_ok, decode_latin1. induction b as [|c b IH]; cbn [map forallb]; [reflexivity|].
  intros H. apply andb_true_iff in H. destruct H as [Hc Hb]. rewrite (IH Hb), andb_true_r.
  revert Hc. clear. destruct c; intros H; try discriminate H; reflexivity.
Qed.
Lemma scan_yields n : Yields (scan n) (fun b => forallb (fun c => negb (is_nul c)) b = true /\ fits (zlen b) = true).
Proof.
  intros r b r' Hf E. split; [|apply (Keeps_scan _ _ _ _ E)]. unfold scan in E.
  destruct (scan_str _ _ _) as [b'|] eqn:Es; [|discriminate]. injection E as <- <-.
  unfold scan_str in Es. destruct (_ || _); [discriminate|].
  destruct (_ || _); [|discriminate]. injection Es as <-. split; [apply until_nul_no_nul|].
  unfold fits in *. pose proof (until_nul_len (firstn (Z.to_nat n) (skipn (Z.to_nat (r_pos r)) (r_data r)))) as HL.
  assert (HX : zlen (firstn (Z.to_nat n) (skipn (Z.to_nat (r_pos r)) (r_data r))) <= zlen (r_data r)).
  { unfold zlen. rewrite firstn_length, skipn_length. lia. }
  lia.
Qed.
Lemma zlen_decode_latin1 b : zlen (decode_latin1 b) = zlen b.
Proof. unfold decode_latin1, zlen. rewrite map_length. reflexivity. Qed.
Definition is_str_ok (s : rstring) : Prop := str_ok s = true.
Definition is_wstr_ok (s : rstring) : Prop := wstr_ok s = true.
Lemma Yields_get_str n : Yields (get_str n) is_str_ok.
Proof.
  eapply Yields_bind; [apply scan_yields|]. intros b [H1 H2].
  eapply Yields_bind; [apply Yields_any, Keeps_sub_remaining|]. intros _ _. apply Yields_ret.
  unfold is_str_ok, str_ok. rewrite decode_latin1_ok by exact H1. rewrite zlen_decode_latin1. exact H2.
Qed.
Lemma Yields_string : Yields get_string is_str_ok.
Proof. eapply Yields_bind; [apply Yields_any, Keeps_u32|]. intros n _. apply Yields_get_str. Qed.
Lemma Yields_str_nru n : Yields (get_str_no_remaining_update n) is_str_ok.
Proof.
  eapply Yields_bind; [apply scan_yields|]. intros b [H1 H2]. apply Yields_ret.
  unfold is_str_ok, str_ok. rewrite decode_latin1_ok by exact H1. rewrite zlen_decode_latin1. exact H2.
Qed.
Lemma take_yields n : Yields (take n) (fun b => fits (zlen b) = true).
Proof.
  intros r b r' Hf E. split; [|apply (Keeps_take _ _ _ _ E)]. unfold take in E.
  destruct (slice _ _ _) as [b'|] eqn:Es; [|discriminate]. injection E as <- <-.
  unfold slice in Es. destruct (_ && _) eqn:Eo; [|discriminate]. injection Es as <-.
  unfold fits in *. assert (HX : zlen (firstn (Z.to_nat n) (skipn (Z.to_nat (r_pos r)) (r_data r))) <= zlen (r_data r)).
  { unfold zlen. rewrite firstn_length, skipn_length. lia. }
  lia.
Qed.
Lemma Yields_wstring : Yields get_wide_string is_wstr_ok.
Proof.
  eapply Yields_bind; [apply Yields_any, Keeps_u32|]. intros n _.
  eapply Yields_bind; [apply take_yields|]. intros b Hb.
  eapply (Yields_bind _ _ (fun s => is_wstr_ok s)).
  - apply Yields_lift. intros s E. destruct (decode_utf16le b) as [s'|[]] eqn:Ed; cbn in E; try discriminate.
    injection E as <-. apply utf16_decode_inv in Ed. destruct Ed as [E1 E2].
    unfold is_wstr_ok, wstr_ok. rewrite E1, E2. exact Hb.
  - intros s Hs. eapply Yields_bind; [apply Yields_any, Keeps_sub_rem|]. intros _ _. apply Yields_ret, Hs.
Qed.
Lemma Yields_record_data : Yields (get_record_data false) (fun d => data_ok d = true).
Proof.
  intros r b r' Hf E. unfold get_record_data in E. destruct (_ && _); [discriminate|].
  destruct (slice _ _ _) as [b'|] eqn:Es; [|discriminate]. injection E as <- <-.
  split; [|reflexivity]. unfold slice in Es. destruct (_ && _); [|discriminate]. injection Es as <-.
  unfold data_ok, fits in *.
  match goal with |- (zlen (firstn ?a (skipn ?b ?d)) <? _) = true =>
    assert (HX : zlen (firstn a (skipn b d)) <= zlen d) by (unfold zlen; rewrite firstn_length, skipn_length; lia) end.
  lia.
Qed.

Lemma next_keeps : Keeps next.
Proof.
  intros r x r' E. unfold next in E.
  assert (HS : match (if r_rem r =? 0 then Ok (tt, r) else skip (r_rem r) r) with
               | Ok (_, r1) => r_data r1 = r_data r | _ => True end).
  { destruct (_ =? 0); [reflexivity|]. unfold skip. destruct (_ <? 0); [exact I|].
    unfold sub_rem. destruct (_ && _); [exact I|reflexivity]. }
  destruct (if r_rem r =? 0 then _ else _) as [[u r1]|f]; [|discriminate].
  destruct (_ <=? _); [discriminate|]. rewrite <- HS.
  assert (K : Keeps (n <- get_u32_no_remaining_update ;;
         (fun r2 => Ok (tt, set_rem r2 (w32_to_Z n))) ;;;
         b <- scan 4 ;; sub_remaining 4 ;;;
         fun r3 =>
           match b with
           | [] => Panic
           | _ =>
               let r4 := set_rtag r3 (string_of_list_byte b) in
               if r_warn r4 && (r_tag r4 =? "ENDB")%string && (r_pos r4 <? zlen (r_data r4)) then Panic
               else Ok (tt, r4)
           end)).
  { apply Keeps_bind; [apply Keeps_u32_nru|]. intros n. apply Keeps_bind; [intros q y q' Eq; injection Eq as <- <-; reflexivity|].
    intros _. apply Keeps_bind; [apply Keeps_scan|]. intros b. apply Keeps_bind; [apply Keeps_sub_remaining|].
    intros _ q y q' Eq. destruct b; [discriminate|]. cbv zeta in Eq.
    destruct (_ && _ && _); [discriminate|]. injection Eq as <- <-. reflexivity. }
  exact (K _ _ _ E).
Qed.

Lemma biff_loop_yields {S} (h : string -> S -> rd_M S) (P : S -> Prop) :
  (forall t s, P s -> Yields (h t s) P) -> forall fuel s, P s -> Yields (biff_loop fuel h s) P.
Proof.
  intros Hh. induction fuel as [|fuel IH]; intros s Hs; cbn [biff_loop]; [intros r x r' _ E; discriminate|].
  eapply Yields_bind; [apply Yields_any, next_keeps|]. intros _ _ r x r' Hf E.
  destruct (is_eof r); [injection E as <- <-; auto|].
  refine (Yields_bind _ _ P P (Hh (r_tag r) s Hs) _ r x r' Hf E). intros s' Hs'. apply IH, Hs'.
Qed.
Lemma Yields_run_loop {S} (h : string -> S -> rd_M S) (P : S -> Prop) s :
  (forall t s, P s -> Yields (h t s) P) -> P s -> Yields (run_loop h s) P.
Proof. intros Hh Hs r x r' Hf E. unfold run_loop in E. exact (biff_loop_yields h P Hh _ s Hs r x r' Hf E). Qed.

(** ** Arms *)
Definition ArmTerm {S} (a : arm S) : Prop := forall s, Term (snd a s).
Definition ArmYields {S} (P : S -> Prop) (a : arm S) : Prop := forall s, P s -> Yields (snd a s) P.

Lemma lookup_in {A} t (arms : list (string * A)) a : lookup t arms = Some a -> In (t, a) arms.
Proof.
  induction arms as [|[k b] arms IH]; cbn; [discriminate|]. destruct (t =? k)%string eqn:E.
  - apply String.eqb_eq in E. intros H; injection H as <-. subst. auto.
  - auto.
Qed.
Lemma Term_dispatch {S} (arms : list (arm S)) : Forall ArmTerm arms -> forall t s, Term (dispatch arms t s).
Proof.
  intros H t s. unfold dispatch. destruct (lookup t arms) as [a|] eqn:E.
  - apply lookup_in in E. rewrite Forall_forall in H. apply (H _ E).
  - apply Term_bind; [apply Term_skip_tag|intros; apply Term_ret].
Qed.
Lemma Term_read_arms {S} (arms : list (arm S)) d : Forall ArmTerm arms -> Term (read_arms arms d).
Proof. intros H. apply Term_run_loop. apply Term_dispatch, H. Qed.
Lemma Yields_dispatch {S} (arms : list (arm S)) P : Forall (ArmYields P) arms ->
  forall t s, P s -> Yields (dispatch arms t s) P.
Proof.
  intros H t s Hs. unfold dispatch. destruct (lookup t arms) as [a|] eqn:E.
  - apply lookup_in in E. rewrite Forall_forall in H. apply (H _ E), Hs.
  - eapply Yields_bind; [apply Yields_any, Keeps_skip_tag|intros; apply Yields_ret, Hs].
Qed.
Lemma Yields_read_arms {S} (arms : list (arm S)) d P : Forall (ArmYields P) arms -> P d -> Yields (read_arms arms d) P.
Proof. intros H Hd. apply Yields_run_loop; [apply Yields_dispatch, H|exact Hd]. Qed.

(** ** Embedded record streams *)
Lemma Term_with_child {A} (m : rd_M A) : Term m -> Term (with_child m).
Proof.
  intros Hm B r HB [H1 H2]. unfold with_child, rbindM, child_reader, get_remaining.
  pose proof (slice_no_oof (r_data r) (r_pos r) (zlen (r_data r) - r_pos r)) as HO.
  destruct (slice _ _ _) as [b|f]; [|intros ->; apply HO; reflexivity].
  assert (HS : Safe 0 (mkRd b 0 0 "" false (r_checked r))) by (split; cbn; lia).
  specialize (Hm 0 _ (Z.le_refl 0) HS). destruct (m _) as [[x r']|f]; [|exact Hm]. destruct Hm as [[Hp _] _].
  unfold skip_end_tag, rret, set_rem, set_pos, Safe; cbn. repeat split; lia.
Qed.
Lemma Yields_with_child {A} (m : rd_M A) P : Yields m P -> Yields (with_child m) P.
Proof.
  intros Hm r x r' Hf E. unfold with_child, rbindM, child_reader, get_remaining in E.
  destruct (slice _ _ _) as [b|f] eqn:Es; [|discriminate].
  destruct (m _) as [[y r1]|] eqn:Em; [|discriminate]. unfold skip_end_tag, rret in E. injection E as <- <-.
  split; [|reflexivity]. refine (proj1 (Hm _ _ _ _ Em)). cbn [r_data].
  unfold slice in Es. destruct (_ && _); [|discriminate]. injection Es as <-. unfold fits in *.
  assert (HX : zlen (firstn (Z.to_nat (zlen (r_data r) - r_pos r)) (skipn (Z.to_nat (r_pos r)) (r_data r))) <= zlen (r_data r)).
  { unfold zlen. rewrite firstn_length, skipn_length. lia. }
  lia.
Qed.

Lemma Term_v2 : Term Vertex2D_read.
Proof. repeat (apply Term_bind; [apply Term_get_f32|intros]). apply Term_ret. Qed.
Lemma Term_v3 : Term Vertex3D_read.
Proof. repeat (apply Term_bind; [apply Term_get_f32|intros]). apply Term_ret. Qed.
Lemma Term_v3u : Term Vertex3D_read_unpadded.
Proof. repeat (apply Term_bind; [apply Term_get_f32|intros]). apply Term_ret. Qed.
Lemma Term_v4 : Term Vertex4D_read.
Proof. repeat (apply Term_bind; [apply Term_get_f32|intros]). apply Term_ret. Qed.
Lemma Term_color : Term Color_read.
Proof. repeat (apply Term_bind; [apply Term_get_u8|intros]). apply Term_ret. Qed.
Lemma Term_dili : Term get_dequantized8.
Proof. apply Term_bind; [apply Term_get_u32|intros; apply Term_ret]. Qed.
Lemma Term_font : Term FontDesc_read.
Proof.
  apply Term_bind; [apply Term_get_u8_nru|intros v].
  apply Term_bind; [destruct (Byte.eqb _ _); [apply Term_ret|apply Term_panic]|intros _].
  apply Term_bind; [apply Term_get_u16_nru|intros]. apply Term_bind; [apply Term_get_u8_nru|intros].
  apply Term_bind; [apply Term_get_u16_nru|intros]. apply Term_bind; [apply Term_get_u32_nru|intros].
  apply Term_bind; [apply Term_get_u8_nru|intros]. apply Term_bind; [apply Term_get_str_nru|intros]. apply Term_ret.
Qed.
Lemma Yields_font : Yields FontDesc_read (fun f => FontDesc_ok f = true).
Proof.
  eapply Yields_bind; [apply Yields_any, Keeps_u8_nru|intros v _].
  eapply Yields_bind; [apply Yields_any; destruct (Byte.eqb _ _); [apply Keeps_ret|apply Keeps_panic]|intros _ _].
  eapply Yields_bind; [apply Yields_any, Keeps_u16_nru|intros cs _].
  eapply Yields_bind; [apply Yields_any, Keeps_u8_nru|intros st _].
  eapply Yields_bind; [apply Yields_any, Keeps_u16_nru|intros we _].
  eapply Yields_bind; [apply Yields_any, Keeps_u32_nru|intros sz _].
  eapply Yields_bind; [apply Yields_any, Keeps_u8_nru|intros nl _].
  eapply (Yields_bind _ _ (fun s => latin1_ok s = true /\ zlen s <= byte_to_Z nl)).
  - eapply (Yields_bind _ _ (fun b => forallb (fun c => negb (is_nul c)) b = true /\ zlen b <= byte_to_Z nl)).
    + intros r b r' Hf E. destruct (scan_yields _ r b r' Hf E) as [[H1 _] H2]. repeat split; try assumption.
      unfold scan, scan_str in E. destruct (_ || _); [discriminate|]. destruct (_ || _); [|discriminate].
      injection E as <- <-. etransitivity; [apply until_nul_len|]. unfold zlen. rewrite firstn_length.
      pose proof (byte_to_Z_range nl). lia.
    + intros b [H1 H2]. apply Yields_ret. rewrite zlen_decode_latin1. split; [apply decode_latin1_ok, H1|exact H2].
  - intros nm [H1 H2]. apply Yields_ret. unfold FontDesc_ok; cbn [fd_name]. rewrite H1. pose proof (byte_to_Z_range nl). cbn [andb]. lia.
Qed.

(** ** Drag points *)
Ltac term1 :=
  lazymatch goal with
  | |- Term get_f32 => apply Term_get_f32
  | |- Term get_bool => apply Term_get_bool
  | |- Term get_u32 => apply Term_get_u32
  | |- Term get_i32 => apply Term_get_i32
  | |- Term get_32 => apply Term_get_32
  | |- Term get_string => apply Term_get_string
  | |- Term get_wide_string => apply Term_get_wide_string
  | |- Term Vertex2D_read => apply Term_v2
  | |- Term Vertex3D_read => apply Term_v3
  | |- Term Vertex3D_read_unpadded => apply Term_v3u
  | |- Term Vertex4D_read => apply Term_v4
  | |- Term Color_read => apply Term_color
  | |- Term get_dequantized8 => apply Term_dili
  | |- Term FontDesc_read => apply Term_font
  | |- Term (get_record_data false) => apply Term_get_record_data
  | |- Term (rret _) => apply Term_ret
  end.
Ltac armterm :=
  intro; cbn [snd];
  repeat (apply Term_bind; [first [term1 | apply Term_lift; auto]|intros]); apply Term_ret.
Ltac armsterm := repeat (apply Forall_cons; [armterm|]); apply Forall_nil.

Lemma DragPoint_term : Term DragPoint_read.
Proof.
  apply Term_with_child, Term_read_arms. unfold DragPoint_arms. armsterm.
Qed.

Ltac keep1 :=
  lazymatch goal with
  | |- Keeps get_f32 => apply Keeps_f32
  | |- Keeps get_bool => apply Keeps_bool
  | |- Keeps get_u32 => apply Keeps_u32
  | |- Keeps get_i32 => apply Keeps_i32
  | |- Keeps get_32 => apply Keeps_32
  | |- Keeps Vertex2D_read => apply Keeps_v2
  | |- Keeps Vertex3D_read => apply Keeps_v3
  | |- Keeps Vertex3D_read_unpadded => apply Keeps_v3u
  | |- Keeps Vertex4D_read => apply Keeps_v4
  | |- Keeps Color_read => apply Keeps_color
  end.
(** [Yields] for one getter. *)
Ltac yield1 :=
  lazymatch goal with
  | |- Yields get_string _ => apply Yields_string
  | |- Yields get_wide_string _ => apply Yields_wstring
  | |- Yields FontDesc_read _ => apply Yields_font
  | |- Yields (get_record_data false) _ => apply Yields_record_data
  | _ => apply Yields_any; keep1
  end.

Lemma DragPoint_yields : Yields DragPoint_read (fun v => DragPoint_ok v = true).
Proof.
  apply Yields_with_child, Yields_read_arms; [|reflexivity]. unfold DragPoint_arms.
  repeat (apply Forall_cons; [intros s Hs; cbn [snd]; repeat (eapply Yields_bind; [yield1|intros ? ?]); apply Yields_ret; first [exact Hs|assumption]|]).
  apply Forall_nil.
Qed.

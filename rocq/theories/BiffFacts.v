(** Lemmas about the BIFF reader and writer *)
From Verif Require Import Base BaseFacts Text Biff.
From Coq Require Import Strings.Byte ZifyBool ZifyNat ZifyN.
Ltac Zify.zify_post_hook ::= Z.div_mod_to_equations.

(** ** Reader positioned between [pre] (already read) and [rest] *)
Definition at_ (pre rest : bytes) (n : Z) (t : string) (w c : bool) : rd :=
  mkRd (pre ++ rest) (zlen pre) n t w c.

Lemma bindM_ok {A B} (m : rd_M A) (k : A -> rd_M B) r a r' :
  m r = Ok (a, r') -> rbindM m k r = k a r'.
Proof. intros H. unfold rbindM. rewrite H. reflexivity. Qed.

Lemma bindM_inv {A B} (m : rd_M A) (k : A -> rd_M B) r b r' :
  rbindM m k r = Ok (b, r') -> exists a r1, m r = Ok (a, r1) /\ k a r1 = Ok (b, r').
Proof.
  unfold rbindM. destruct (m r) as [[a r1]|] eqn:E; [|discriminate].
  intros H. exists a, r1. auto.
Qed.

Lemma take_at pre x rest n t w c k :
  k = zlen x ->
  take k (at_ pre (x ++ rest) n t w c) = Ok (x, at_ (pre ++ x) rest n t w c).
Proof.
  intros ->. unfold take, at_. cbn [r_data r_pos]. rewrite slice_mid by reflexivity.
  unfold set_pos. cbn. rewrite ?zlen_app, <- ?app_assoc. reflexivity.
Qed.

Lemma sub_rem_at pre rest n t w c k :
  k <= n -> sub_rem k (at_ pre rest n t w c) = Ok (tt, at_ pre rest (n - k) t w c).
Proof.
  intros H. unfold sub_rem, at_. cbn. replace (n <? k) with false by lia. reflexivity.
Qed.
Lemma sub_remaining_at pre rest n t w c k :
  k <= n -> sub_remaining k (at_ pre rest n t w c) = Ok (tt, at_ pre rest (n - k) t w c).
Proof.
  intros H. unfold sub_remaining, at_. cbn. replace (n <? k) with false by lia. rewrite andb_false_r. reflexivity.
Qed.

Ltac at_step L := erewrite bindM_ok; [ | first [ apply L | eapply L ]; try reflexivity; try lia ].

Lemma get_f32_at pre x rest n t w c :
  4 <= n -> get_f32 (at_ pre (w32_bytes x ++ rest) n t w c) = Ok (x, at_ (pre ++ w32_bytes x) rest (n - 4) t w c).
Proof.
  intros H. unfold get_f32. at_step take_at. at_step sub_rem_at. destruct x; reflexivity.
Qed.
Lemma get_i32_at pre x rest n t w c :
  4 <= n -> get_i32 (at_ pre (w32_bytes x ++ rest) n t w c) = Ok (x, at_ (pre ++ w32_bytes x) rest (n - 4) t w c).
Proof. apply get_f32_at. Qed.
Lemma get_u32_nru_at pre x rest n t w c :
  get_u32_no_remaining_update (at_ pre (w32_bytes x ++ rest) n t w c) = Ok (x, at_ (pre ++ w32_bytes x) rest n t w c).
Proof. unfold get_u32_no_remaining_update. at_step take_at. destruct x; reflexivity. Qed.
Lemma get_u32_at pre x rest n t w c :
  4 <= n -> get_u32 (at_ pre (w32_bytes x ++ rest) n t w c) = Ok (x, at_ (pre ++ w32_bytes x) rest (n - 4) t w c).
Proof.
  intros H. unfold get_u32. at_step get_u32_nru_at. at_step sub_rem_at. reflexivity.
Qed.
Lemma get_32_at pre x rest n t w c :
  4 <= n -> get_32 (at_ pre (w32_bytes x ++ rest) n t w c) = Ok (x, at_ (pre ++ w32_bytes x) rest (n - 4) t w c).
Proof. apply get_u32_at. Qed.
Lemma get_32_nru_at pre x rest n t w c :
  get_32_no_remaining_update (at_ pre (w32_bytes x ++ rest) n t w c) = Ok (x, at_ (pre ++ w32_bytes x) rest n t w c).
Proof. apply get_u32_nru_at. Qed.
Lemma get_u16_nru_at pre x rest n t w c :
  get_u16_no_remaining_update (at_ pre (w16_bytes x ++ rest) n t w c) = Ok (x, at_ (pre ++ w16_bytes x) rest n t w c).
Proof. unfold get_u16_no_remaining_update. at_step take_at. destruct x; reflexivity. Qed.
Lemma get_u8_nru_at pre x rest n t w c :
  get_u8_no_remaining_update (at_ pre ([x] ++ rest) n t w c) = Ok (x, at_ (pre ++ [x]) rest n t w c).
Proof. unfold get_u8_no_remaining_update. at_step take_at. reflexivity. Qed.
Lemma get_u8_at pre x rest n t w c :
  1 <= n -> get_u8 (at_ pre ([x] ++ rest) n t w c) = Ok (x, at_ (pre ++ [x]) rest (n - 1) t w c).
Proof. intros H. unfold get_u8. at_step get_u8_nru_at. at_step sub_rem_at. reflexivity. Qed.
Lemma get_u16_at pre x rest n t w c :
  2 <= n -> get_u16 (at_ pre (w16_bytes x ++ rest) n t w c) = Ok (x, at_ (pre ++ w16_bytes x) rest (n - 2) t w c).
Proof. intros H. unfold get_u16. at_step get_u16_nru_at. at_step sub_rem_at. reflexivity. Qed.
Lemma get_w64_at pre x rest n t w c :
  8 <= n -> get_w64 (at_ pre (w64_bytes x ++ rest) n t w c) = Ok (x, at_ (pre ++ w64_bytes x) rest (n - 8) t w c).
Proof. intros H. unfold get_w64. at_step take_at. at_step sub_rem_at. destruct x as [[] []]; reflexivity. Qed.

Definition bool_bytes (b : bool) : bytes := w32_bytes (Z_to_w32 (if b then 1 else 0)).
Lemma get_bool_at pre x rest n t w c :
  4 <= n -> get_bool (at_ pre (bool_bytes x ++ rest) n t w c) = Ok (x, at_ (pre ++ bool_bytes x) rest (n - 4) t w c).
Proof. intros H. unfold get_bool. at_step take_at. at_step sub_rem_at. destruct x; reflexivity. Qed.

Lemma until_nul_app a b : forallb (fun c => negb (is_nul c)) a = true -> until_nul (a ++ x00 :: b) = a /\ until_nul a = a.
Proof.
  induction a as [|c a IH]; intros H; [split; reflexivity|].
  cbn in H. apply andb_true_iff in H. destruct H as [Hc Ha]. destruct (IH Ha) as [I1 I2].
  cbn [until_nul app]. destruct (is_nul c); [discriminate|]. rewrite I1, I2. split; reflexivity.
Qed.

Lemma scan_at pre x rest n t w c k :
  k = zlen x -> forallb (fun c => negb (is_nul c)) x = true ->
  scan k (at_ pre (x ++ rest) n t w c) = Ok (x, at_ (pre ++ x) rest n t w c).
Proof.
  intros -> Hx. unfold scan, scan_str, at_. cbn [r_data r_pos].
  pose proof (zlen_nonneg pre). pose proof (zlen_nonneg x). rewrite !zlen_app.
  replace ((zlen pre <? 0) || (zlen x <? 0) || (zlen pre + (zlen x + zlen rest) <? zlen pre)) with false
    by (pose proof (zlen_nonneg rest); lia).
  rewrite skipn_zlen, firstn_zlen. rewrite (proj2 (until_nul_app x [] Hx)).
  rewrite Z.eqb_refl. cbn [orb]. unfold set_pos. cbn. rewrite ?zlen_app, <- ?app_assoc. reflexivity.
Qed.

(** a NUL-padded string *)
Lemma scan_at_padded pre x k rest n t w c cnt :
  cnt = zlen x + 1 + zlen k -> forallb (fun c => negb (is_nul c)) x = true ->
  scan cnt (at_ pre ((x ++ x00 :: k) ++ rest) n t w c) = Ok (x, at_ (pre ++ x ++ x00 :: k) rest n t w c).
Proof.
  intros -> Hx. unfold scan, scan_str, at_. cbn [r_data r_pos].
  pose proof (zlen_nonneg pre). pose proof (zlen_nonneg x). pose proof (zlen_nonneg k).
  rewrite !zlen_app.
  replace ((zlen pre <? 0) || (zlen x + 1 + zlen k <? 0) || (zlen pre + (zlen x + zlen (x00 :: k) + zlen rest) <? zlen pre)) with false
    by (rewrite zlen_cons; pose proof (zlen_nonneg rest); lia).
  rewrite skipn_zlen.
  assert (E : zlen x + 1 + zlen k = zlen (x ++ x00 :: k)) by (rewrite zlen_app, zlen_cons; lia).
  rewrite E. rewrite firstn_zlen. rewrite (proj1 (until_nul_app x k Hx)).
  replace ((zlen x =? zlen (x ++ x00 :: k)) || (zlen x <? zlen ((x ++ x00 :: k) ++ rest))) with true.
  2:{ rewrite !zlen_app, zlen_cons. pose proof (zlen_nonneg rest). lia. }
  unfold set_pos. cbn. rewrite ?zlen_app, <- ?app_assoc. reflexivity.
Qed.

(** Latin-1 strings *)
Definition latin1_bytes (s : rstring) : bytes := map (fun c => Z_to_byte (Z.of_N c)) s.

Lemma encode_latin1_bytes s : latin1_ok s = true -> encode_latin1_lossy s = Ok (latin1_bytes s).
Proof.
  induction s as [|c s IH]; intros H; [reflexivity|].
  cbn [latin1_ok forallb] in H. apply andb_true_iff in H. destruct H as [Hc Hs].
  cbn [encode_latin1_lossy latin1_bytes map]. replace (c <? 256)%N with true by lia.
  assert (E : Byte.of_N c = Some (Z_to_byte (Z.of_N c))).
  { unfold Z_to_byte. rewrite Z.mod_small by lia. rewrite N2Z.id.
    destruct (Byte.of_N c) eqn:E; [reflexivity|]. apply Byte.of_N_None_iff in E. lia. }
  rewrite E. rewrite IH by exact Hs. reflexivity.
Qed.
Lemma decode_latin1_bytes s : latin1_ok s = true -> decode_latin1 (latin1_bytes s) = s.
Proof.
  intros H. destruct (latin1_encode_ok s (latin1_ok_lt256 _ H)) as (d & E & D & _).
  rewrite encode_latin1_bytes in E by exact H. congruence.
Qed.
Lemma zlen_latin1_bytes s : zlen (latin1_bytes s) = zlen s.
Proof. apply zlen_map. Qed.
Lemma latin1_bytes_no_nul s : latin1_ok s = true -> forallb (fun c => negb (is_nul c)) (latin1_bytes s) = true.
Proof.
  induction s as [|c s IH]; intros H; [reflexivity|].
  cbn [latin1_ok forallb] in H. apply andb_true_iff in H. destruct H as [Hc Hs].
  unfold latin1_bytes in *. cbn [map forallb]. rewrite (IH Hs).
  assert (is_nul (Z_to_byte (Z.of_N c)) = false); [|rewrite H; reflexivity].
  destruct (is_nul (Z_to_byte (Z.of_N c))) eqn:E; [|reflexivity].
  apply is_nul_byte in E. apply (f_equal byte_to_Z) in E. rewrite byte_to_Z_to_byte in E.
  change (byte_to_Z x00) with 0 in E. lia.
Qed.

(** A string that fits a length-prefixed record. *)
Definition fits (n : Z) : bool := n <? 4294967288.
Definition str_ok (s : rstring) : bool := latin1_ok s && fits (zlen s).
Definition wstr_ok (s : rstring) : bool := is_rstring s && fits (zlen (encode_utf16le s)).

Definition lp_bytes (d : bytes) : bytes := w32_bytes (Z_to_w32 (zlen d)) ++ d.
Definition string_bytes (s : rstring) : bytes := lp_bytes (latin1_bytes s).
Definition wstring_bytes (s : rstring) : bytes := lp_bytes (encode_utf16le s).

Lemma lp_len d : zlen (lp_bytes d) = 4 + zlen d.
Proof. unfold lp_bytes. rewrite zlen_app, zlen_w32_bytes. reflexivity. Qed.

Lemma get_str_at pre x rest n t w c k :
  latin1_ok x = true -> k = zlen x -> k <= n ->
  get_str k (at_ pre (latin1_bytes x ++ rest) n t w c) = Ok (x, at_ (pre ++ latin1_bytes x) rest (n - k) t w c).
Proof.
  intros Hx -> Hn. unfold get_str.
  erewrite bindM_ok by (apply scan_at; [symmetry; apply zlen_latin1_bytes | apply latin1_bytes_no_nul, Hx]).
  at_step sub_remaining_at. cbn. unfold rret. rewrite decode_latin1_bytes by exact Hx. reflexivity.
Qed.

Lemma get_string_at pre x rest n t w c :
  str_ok x = true -> 4 + zlen x <= n ->
  get_string (at_ pre (string_bytes x ++ rest) n t w c)
    = Ok (x, at_ (pre ++ string_bytes x) rest (n - zlen (string_bytes x)) t w c).
Proof.
  intros Hx Hn. unfold str_ok, fits in Hx. apply andb_true_iff in Hx. destruct Hx as [Hx Hl].
  unfold get_string, string_bytes, lp_bytes. rewrite <- app_assoc. 
  erewrite bindM_ok by (apply get_u32_at; pose proof (zlen_nonneg x); lia).
  rewrite zlen_latin1_bytes. pose proof (zlen_nonneg x).
  rewrite w32_to_Z_small by lia.
  rewrite get_str_at; try lia; auto.
  rewrite <- app_assoc, zlen_app, zlen_w32_bytes, zlen_latin1_bytes.
  replace (n - (4 + zlen x)) with (n - 4 - zlen x) by lia. reflexivity.
Qed.

Lemma get_string_nru_at pre x rest n t w c :
  str_ok x = true ->
  get_string_no_remaining_update (at_ pre (string_bytes x ++ rest) n t w c)
    = Ok (x, at_ (pre ++ string_bytes x) rest n t w c).
Proof.
  intros Hx. unfold str_ok, fits in Hx. apply andb_true_iff in Hx. destruct Hx as [Hx Hl].
  unfold get_string_no_remaining_update, string_bytes, lp_bytes. rewrite <- app_assoc. at_step get_u32_nru_at.
  rewrite zlen_latin1_bytes. pose proof (zlen_nonneg x).
  rewrite w32_to_Z_small by lia.
  unfold get_str_no_remaining_update. 
  erewrite bindM_ok by (apply scan_at; [symmetry; apply zlen_latin1_bytes | apply latin1_bytes_no_nul, Hx]).
  unfold rret. rewrite decode_latin1_bytes by exact Hx. rewrite <- app_assoc. reflexivity.
Qed.

From Verif Require Import TextFacts.

Lemma get_wide_string_at pre x rest n t w c :
  wstr_ok x = true -> zlen (wstring_bytes x) <= n ->
  get_wide_string (at_ pre (wstring_bytes x ++ rest) n t w c)
    = Ok (x, at_ (pre ++ wstring_bytes x) rest (n - zlen (wstring_bytes x)) t w c).
Proof.
  intros Hx Hn. unfold wstr_ok, fits in Hx. apply andb_true_iff in Hx. destruct Hx as [Hx Hl].
  unfold wstring_bytes in *. rewrite lp_len in *. unfold get_wide_string, lp_bytes. rewrite <- app_assoc.
  pose proof (zlen_nonneg (encode_utf16le x)).
  erewrite bindM_ok by (apply get_u32_at; lia).
  rewrite w32_to_Z_small by lia.
  erewrite bindM_ok by (apply take_at; reflexivity).
  rewrite utf16_roundtrip by exact Hx. cbn [unwrap].
  erewrite bindM_ok by reflexivity.
  erewrite bindM_ok by (apply sub_rem_at; lia).
  unfold rret. rewrite <- app_assoc.
  replace (n - (4 + zlen (encode_utf16le x))) with (n - 4 - zlen (encode_utf16le x)) by lia. reflexivity.
Qed.

(** ** Records *)
Definition tag_bytes (t : string) : bytes := firstn 4 (list_byte_of_string t ++ [x00; x00; x00; x00]).
Definition tag_ok (t : string) : bool :=
  (1 <=? String.length t)%nat && (String.length t <=? 4)%nat &&
  forallb (fun c => negb (is_nul c)) (list_byte_of_string t).
Definition size_ok (n : Z) : bool := (0 <=? n) && (n + 4 <? two32).

(** A record: tag, size declared after the tag, bytes that follow the tag. *)
Record rec : Type := mkRec { rec_tag : string; rec_n : Z; rec_p : bytes }.
Definition hdr (t : string) (n : Z) : bytes := w32_bytes (Z_to_w32 (4 + n)) ++ tag_bytes t.
Definition enc_rec (r : rec) : bytes := hdr (rec_tag r) (rec_n r) ++ rec_p r.
Definition enc (rs : list rec) : bytes := flat_map enc_rec rs.
Definition R (t : string) (p : bytes) : rec := mkRec t (zlen p) p.
Definition R0 (t : string) (p : bytes) : rec := mkRec t 0 p.
Definition endb : rec := R "ENDB" [].

Lemma enc_app a b : enc (a ++ b) = enc a ++ enc b.
Proof. unfold enc. apply flat_map_app. Qed.
Lemma enc_cons a b : enc (a :: b) = enc_rec a ++ enc b.
Proof. reflexivity. Qed.

Lemma list_byte_of_string_length t : List.length (list_byte_of_string t) = String.length t.
Proof.
  unfold list_byte_of_string. rewrite map_length. induction t; cbn; congruence.
Qed.

Lemma tag_bytes_len t : tag_ok t = true -> zlen (tag_bytes t) = 4.
Proof.
  intros H. unfold tag_ok in H. unfold tag_bytes, zlen.
  rewrite firstn_length, app_length, list_byte_of_string_length. cbn [List.length]. lia.
Qed.

Lemma scan_tag pre t rest n t0 w c :
  tag_ok t = true ->
  scan 4 (at_ pre (tag_bytes t ++ rest) n t0 w c)
    = Ok (list_byte_of_string t, at_ (pre ++ tag_bytes t) rest n t0 w c).
Proof.
  intros H. unfold tag_ok in H.
  apply andb_true_iff in H. destruct H as [H Hn]. apply andb_true_iff in H. destruct H as [H1 H2].
  unfold tag_bytes.
  rewrite firstn_app, list_byte_of_string_length.
  rewrite firstn_all2 by (rewrite list_byte_of_string_length; lia).
  set (l := list_byte_of_string t) in *.
  assert (HL : List.length l = String.length t) by apply list_byte_of_string_length.
  remember (4 - String.length t)%nat as k.
  assert (Hk : (k <= 3)%nat) by lia.
  destruct k as [|k].
  - cbn [firstn]. rewrite app_nil_r. apply scan_at; [unfold zlen; lia|exact Hn].
  - cbn [firstn]. set (z := firstn k [x00; x00; x00]).
    assert (Hz : List.length z = k) by (unfold z; rewrite firstn_length; cbn [List.length]; lia).
    apply scan_at_padded; [|exact Hn]. unfold zlen. lia.
Qed.

Lemma next_at pre t n rest w c t0 :
  tag_ok t = true -> size_ok n = true -> (w && (t =? "ENDB")%string = true -> rest = []) ->
  next (at_ pre (hdr t n ++ rest) 0 t0 w c) = Ok (tt, at_ (pre ++ hdr t n) rest n t w c).
Proof.
  intros Ht Hn Hw. unfold size_ok, two32 in Hn.
  unfold next. cbn [r_rem at_]. rewrite Z.eqb_refl.
  change (mkRd (pre ++ hdr t n ++ rest) (zlen pre) 0 t0 w c) with (at_ pre (hdr t n ++ rest) 0 t0 w c).
  cbn [r_data r_pos at_]. rewrite !zlen_app.
  pose proof (zlen_nonneg rest) as HR.
  unfold hdr at 1. rewrite zlen_app, zlen_w32_bytes, tag_bytes_len by exact Ht.
  replace (zlen pre + (4 + 4 + zlen rest) <=? zlen pre) with false by lia.
  unfold hdr. rewrite <- app_assoc.
  change (mkRd (pre ++ ?x) (zlen pre) 0 t0 w c) with (at_ pre x 0 t0 w c).
  erewrite bindM_ok by apply get_u32_nru_at.
  rewrite w32_to_Z_small by lia.
  erewrite bindM_ok by reflexivity.
  change (set_rem (at_ ?a ?b 0 t0 w c) (4 + n)) with (at_ a b (4 + n) t0 w c).
  erewrite bindM_ok by (apply scan_tag; exact Ht).
  erewrite bindM_ok by (apply sub_remaining_at; lia).
  replace (4 + n - 4) with n by lia.
  destruct (list_byte_of_string t) as [|b0 bl] eqn:E.
  { exfalso. unfold tag_ok in Ht. pose proof (list_byte_of_string_length t) as L. rewrite E in L. cbn in L. lia. }
  rewrite <- E. rewrite string_of_list_byte_of_string.
  cbn [set_rtag r_warn r_tag r_pos r_data at_].
  destruct (w && (t =? "ENDB")%string) eqn:Ew.
  - rewrite (Hw eq_refl), app_nil_r, Z.ltb_irrefl. cbn [andb].
    unfold set_rtag, at_; cbn [r_data r_pos r_rem r_tag r_warn r_checked]. rewrite ?app_nil_r, <- ?app_assoc. reflexivity.
  - cbn [andb]. unfold set_rtag, at_; cbn [r_data r_pos r_rem r_tag r_warn r_checked]. rewrite <- ?app_assoc. reflexivity.
Qed.

(** ** Running a handler over records *)
Section Steps.
Context {S : Type} (h : string -> S -> rd_M S).

Definition Handles (t : string) (n : Z) (p : bytes) (s s' : S) : Prop :=
  forall pre rest w c, rest <> [] ->
    h t s (at_ pre (p ++ rest) n t w c) = Ok (s', at_ (pre ++ p) rest 0 t w c).

Definition rec_ok (t : string) (n : Z) : bool := tag_ok t && size_ok n && negb (t =? "ENDB")%string.

Inductive Steps : S -> list rec -> S -> Prop :=
| Steps_nil s : Steps s [] s
| Steps_cons t n p s s' rs s'' :
    rec_ok t n = true -> Handles t n p s s' -> Steps s' rs s'' -> Steps s (mkRec t n p :: rs) s''.

Lemma Steps_app s rs1 s' rs2 s'' : Steps s rs1 s' -> Steps s' rs2 s'' -> Steps s (rs1 ++ rs2) s''.
Proof.
  induction 1; intros; cbn; [assumption|]. econstructor; eauto.
Qed.

Lemma Steps_one s t p s' : rec_ok t (zlen p) = true -> Handles t (zlen p) p s s' -> Steps s [R t p] s'.
Proof. intros. unfold R. econstructor; eauto. constructor. Qed.

Lemma Steps_one_cons s t p s' rs s'' :
  rec_ok t (zlen p) = true -> Handles t (zlen p) p s s' -> Steps s' rs s'' -> Steps s (R t p :: rs) s''.
Proof. intros. unfold R. econstructor; eauto. Qed.

Lemma Steps_one0_cons s t p s' rs s'' :
  rec_ok t 0 = true -> Handles t 0 p s s' -> Steps s' rs s'' -> Steps s (R0 t p :: rs) s''.
Proof. intros. unfold R0. econstructor; eauto. Qed.

Lemma Steps_opt {A} (o : option A) (f : A -> list rec) (g : option A -> S) s rs s'' :
  g None = s -> (forall x, o = Some x -> Steps s (f x) (g (Some x))) -> Steps (g o) rs s'' ->
  Steps s (match o with Some x => f x | None => [] end ++ rs) s''.
Proof.
  intros H0 H1 H2. eapply Steps_app; [|exact H2]. destruct o as [x|].
  - apply H1; reflexivity.
  - rewrite H0. constructor.
Qed.

Lemma Steps_list {A} (l : list A) (f : A -> rec) (g : list A -> S) s rs s'' :
  g [] = s ->
  (forall done x, In x l -> Steps (g done) [f x] (g (done ++ [x]))) ->
  Steps (g l) rs s'' ->
  Steps s (map f l ++ rs) s''.
Proof.
  intros <- H H2.
  eapply Steps_app; [|exact H2].
  assert (G : forall todo done, (forall x, In x todo -> In x l) -> Steps (g done) (map f todo) (g (done ++ todo))).
  { induction todo as [|x todo IH]; intros done Hin; cbn [map].
    - rewrite app_nil_r. constructor.
    - change (f x :: map f todo) with ([f x] ++ map f todo).
      eapply Steps_app; [apply H, Hin; left; reflexivity|].
      replace (done ++ x :: todo) with ((done ++ [x]) ++ todo) by (rewrite <- app_assoc; reflexivity).
      apply IH. intros; apply Hin; right; assumption. }
  apply (G l []). auto.
Qed.

Lemma biff_loop_steps s rs s' : Steps s rs s' ->
  forall fuel pre tail t0 w c, (List.length rs < fuel)%nat -> (w = true -> tail = []) ->
  biff_loop fuel h s (at_ pre (enc (rs ++ [endb]) ++ tail) 0 t0 w c)
    = Ok (s', at_ (pre ++ enc (rs ++ [endb])) tail 0 "ENDB" w c).
Proof.
  induction 1 as [s|t n p s s1 rs s2 Hr Hh HS IH]; intros fuel pre tail t0 w c Hf Hw.
  - destruct fuel as [|fuel]; [cbn in Hf; lia|]. cbn [biff_loop app].
    change (enc [endb]) with (hdr "ENDB" 0).
    erewrite bindM_ok.
    2:{ apply next_at; [reflexivity|reflexivity|]. intros E. apply Hw. destruct w; [reflexivity|discriminate]. }
    replace (is_eof _) with true; [reflexivity|].
    unfold is_eof, at_. cbn [r_tag]. rewrite String.eqb_refl, orb_true_r. reflexivity.
  - destruct fuel as [|fuel]; [cbn in Hf; lia|]. cbn [biff_loop].
    unfold rec_ok in Hr. apply andb_true_iff in Hr. destruct Hr as [Hr He].
    apply andb_true_iff in Hr. destruct Hr as [Ht Hn].
    cbn [app]. rewrite enc_cons. unfold enc_rec; cbn [rec_tag rec_n rec_p].
    rewrite <- !app_assoc.
    erewrite bindM_ok.
    2:{ apply next_at; [exact Ht|exact Hn|]. intros E.
        apply andb_true_iff in E. destruct E as [_ E]. rewrite E in He. discriminate. }
    replace (is_eof _) with false.
    2:{ unfold is_eof, at_. cbn [r_data r_pos r_tag].
        apply negb_true_iff in He. rewrite He, orb_false_r. rewrite !zlen_app, enc_app, zlen_app.
        change (enc [endb]) with (hdr "ENDB" 0).
        assert (zlen (hdr "ENDB" 0) = 8) by reflexivity.
        pose proof (zlen_nonneg p). pose proof (zlen_nonneg (enc rs)). pose proof (zlen_nonneg tail). lia. }
    erewrite bindM_ok.
    2:{ apply Hh. rewrite enc_app. intros E. apply (f_equal zlen) in E. revert E.
        rewrite !zlen_app. change (enc [endb]) with (hdr "ENDB" 0).
        assert (zlen (hdr "ENDB" 0) = 8) by reflexivity. change (zlen (@nil byte)) with 0.
        pose proof (zlen_nonneg (enc rs)). pose proof (zlen_nonneg tail). lia. }
    replace (pre ++ hdr t n ++ p ++ enc (rs ++ [endb])) with (((pre ++ hdr t n) ++ p) ++ enc (rs ++ [endb]))
      by (rewrite <- !app_assoc; reflexivity).
    apply IH; [cbn in Hf; lia|exact Hw].
Qed.

Lemma enc_length rs : (forall r, In r rs -> tag_ok (rec_tag r) = true) -> 8 * zlen rs <= zlen (enc rs).
Proof.
  induction rs as [|r rs IH]; intros H; [unfold zlen; cbn; lia|].
  rewrite enc_cons, zlen_app, zlen_cons. unfold enc_rec, hdr. rewrite !zlen_app, zlen_w32_bytes.
  rewrite tag_bytes_len by (apply H; left; reflexivity).
  pose proof (zlen_nonneg (rec_p r)). specialize (IH (fun r' Hr' => H r' (or_intror Hr'))). lia.
Qed.

Lemma Steps_tags s rs s' : Steps s rs s' -> forall r, In r rs -> tag_ok (rec_tag r) = true.
Proof.
  induction 1 as [|t n p s s1 rs s2 Hr Hh HS IH]; intros r Hin; [destruct Hin|].
  destruct Hin as [<-|Hin]; [|apply IH, Hin]. cbn. unfold rec_ok in Hr.
  apply andb_true_iff in Hr. destruct Hr as [Hr _]. apply andb_true_iff in Hr. apply Hr.
Qed.

(** Reading a sequence of records that the handler accepts, followed by ENDB. *)
Lemma run_loop_steps s rs s' pre tail t0 w c : Steps s rs s' -> (w = true -> tail = []) ->
  run_loop h s (at_ pre (enc (rs ++ [endb]) ++ tail) 0 t0 w c)
    = Ok (s', at_ (pre ++ enc (rs ++ [endb])) tail 0 "ENDB" w c).
Proof.
  intros HS Hw. unfold run_loop. eapply biff_loop_steps; [exact HS| |exact Hw].
  unfold loop_fuel, at_. cbn [r_data]. rewrite !zlen_app, enc_app, zlen_app.
  pose proof (enc_length rs (Steps_tags _ _ _ HS)).
  pose proof (zlen_nonneg pre). pose proof (zlen_nonneg tail). pose proof (zlen_nonneg (enc [endb])).
  unfold zlen in *. lia.
Qed.
End Steps.

(** ** Writer *)
Definition Wclosed (w : wr) (d : bytes) : Prop := w_tag w = ""%string /\ w_data w = d.
(** [w] holds [d] once its open record, if any, is ended. *)
Definition Wc (w : wr) (d : bytes) : Prop := exists w', end_tag w = Ok w' /\ Wclosed w' d.

(** [m] appends the bytes [b]. *)
Definition wapp (m : wr_M) (b : bytes) : Prop :=
  forall w d, Wc w d -> exists w', m w = Ok w' /\ Wc w' (d ++ b).
(** [m] writes the bytes [p] into the open record. *)
Definition wbody (m : wr_M) (p : bytes) : Prop :=
  forall w, m w = Ok (mkWr (w_data w ++ p) (w_tag_start w) (w_tag w) (w_size w + zlen p)).

Lemma Wclosed_Wc w d : Wclosed w d -> Wc w d.
Proof. intros [H1 H2]. exists w. unfold end_tag. rewrite H1. cbn. repeat split; assumption. Qed.

Lemma Wc_new : Wc wr_new [].
Proof. apply Wclosed_Wc. split; reflexivity. Qed.

Lemma wapp_seq a b x y : wapp a x -> wapp b y -> wapp (a >>> b) (x ++ y).
Proof.
  intros Ha Hb w d Hw. destruct (Ha w d Hw) as (w1 & E1 & H1). destruct (Hb w1 _ H1) as (w2 & E2 & H2).
  exists w2. unfold wseq. rewrite E1, app_assoc. split; assumption.
Qed.
Lemma wapp_skip : wapp wskip [].
Proof. intros w d H. exists w. rewrite app_nil_r. split; [reflexivity|exact H]. Qed.

Lemma wapp_eq m a b : a = b -> wapp m a -> wapp m b.
Proof. intros ->; auto. Qed.

Lemma wapp_cons a b r rs : wapp a (enc_rec r) -> wapp b (enc rs) -> wapp (a >>> b) (enc (r :: rs)).
Proof. intros. rewrite enc_cons. apply wapp_seq; assumption. Qed.
Lemma wapp_app a b r rs : wapp a (enc r) -> wapp b (enc rs) -> wapp (a >>> b) (enc (r ++ rs)).
Proof. intros. rewrite enc_app. apply wapp_seq; assumption. Qed.
Lemma wapp_opt {A} (o : option A) (f : A -> wr_M) (g : A -> list rec) :
  (forall x, o = Some x -> wapp (f x) (enc (g x))) ->
  wapp (wopt o f) (enc (match o with Some x => g x | None => [] end)).
Proof. intros H. destruct o as [x|]; cbn; [apply H; reflexivity|apply wapp_skip]. Qed.
Lemma wapp_for {A} (l : list A) (f : A -> wr_M) (g : A -> rec) :
  (forall x, In x l -> wapp (f x) (enc_rec (g x))) ->
  wapp (wfor l f) (enc (map g l)).
Proof.
  induction l as [|x l IH]; intros H; cbn [wfor map]; [apply wapp_skip|].
  apply wapp_cons; [apply H; left; reflexivity|apply IH; intros; apply H; right; assumption].
Qed.

Lemma wbody_seq a b x y : wbody a x -> wbody b y -> wbody (a >>> b) (x ++ y).
Proof.
  intros Ha Hb w. unfold wseq. rewrite Ha, Hb. cbn. rewrite zlen_app, app_assoc, Z.add_assoc. reflexivity.
Qed.
Lemma wbody_skip : wbody wskip [].
Proof. intros w. unfold wskip. rewrite app_nil_r, zlen_nil, Z.add_0_r. destruct w; reflexivity. Qed.
Lemma wbody_data p : wbody (write_data p) p.
Proof. intros w. reflexivity. Qed.
Lemma wbody_u32 x : wbody (write_u32 x) (w32_bytes x). Proof. intros w; reflexivity. Qed.
Lemma wbody_32 x : wbody (write_32 x) (w32_bytes x). Proof. intros w; reflexivity. Qed.
Lemma wbody_f32 x : wbody (write_f32 x) (w32_bytes x). Proof. intros w; reflexivity. Qed.
Lemma wbody_u16 x : wbody (write_u16 x) (w16_bytes x). Proof. intros w; reflexivity. Qed.
Lemma wbody_u8 x : wbody (write_u8 x) [x]. Proof. intros w; reflexivity. Qed.
Lemma wbody_bool b : wbody (write_bool b) (bool_bytes b).
Proof. intros w; destruct b; reflexivity. Qed.
Lemma wbody_lp d : fits (zlen d) = true -> wbody (write_length_prefixed_data d) (lp_bytes d).
Proof.
  intros H w. unfold fits in H. unfold write_length_prefixed_data, wlift, try_u32, two32.
  replace (zlen d <? 4294967296) with true by lia. unfold lp_bytes.
  apply (wbody_seq _ _ _ _ (wbody_u32 _) (wbody_data d)).
Qed.
Lemma wbody_string s : str_ok s = true -> wbody (write_string s) (string_bytes s).
Proof.
  intros H w. unfold str_ok in H. apply andb_true_iff in H. destruct H as [H1 H2].
  unfold write_string, wlift. rewrite encode_latin1_bytes by exact H1.
  apply wbody_lp. rewrite zlen_latin1_bytes. exact H2.
Qed.
Lemma wbody_wstring s : wstr_ok s = true -> wbody (write_wide_string s) (wstring_bytes s).
Proof.
  intros H w. unfold wstr_ok in H. apply andb_true_iff in H. destruct H as [H1 H2].
  apply wbody_lp. exact H2.
Qed.

Lemma zlen_string_bytes s : zlen (string_bytes s) = 4 + zlen s.
Proof. unfold string_bytes. rewrite lp_len, zlen_latin1_bytes. reflexivity. Qed.

Lemma patch_mid (d a b p : bytes) : List.length a = List.length b ->
  patch (d ++ a ++ p) (zlen d) b = d ++ b ++ p.
Proof.
  intros H. unfold patch. rewrite firstn_zlen. unfold zlen. rewrite Nat2Z.id. f_equal. f_equal.
  rewrite <- H. rewrite !skipn_app. rewrite (skipn_all2 d) by lia. rewrite (skipn_all2 a) by lia. cbn [app].
  match goal with |- skipn ?k p = p => replace k with 0%nat by lia end. reflexivity.
Qed.

(** The open state right after [new_tag] and some body bytes. *)
Definition Wopen (w : wr) (d : bytes) (t : string) (p : bytes) : Prop :=
  w_tag w = t /\ w_tag_start w = zlen d /\ w_size w = 4 + zlen p /\
  w_data w = d ++ [x00; x00; x00; x00] ++ tag_bytes t ++ p.

Lemma tag_nonempty t : tag_ok t = true -> (t =? "")%string = false.
Proof. destruct t; [discriminate|reflexivity]. Qed.

Lemma Wopen_end w d t p : tag_ok t = true -> size_ok (zlen p) = true -> Wopen w d t p ->
  exists w', end_tag w = Ok w' /\ Wclosed w' (d ++ enc_rec (R t p)).
Proof.
  intros Ht Hs (H1 & H2 & H3 & H4). unfold end_tag. rewrite H1, tag_nonempty by exact Ht.
  unfold size_ok, try_u32, two32 in *. rewrite H3.
  replace (4 + zlen p <? 4294967296) with true by lia.
  eexists. split; [reflexivity|]. split; [reflexivity|]. cbn [w_data].
  rewrite H2, H4, patch_mid by reflexivity. unfold enc_rec, R, hdr. cbn [rec_tag rec_n rec_p]. rewrite <- app_assoc. reflexivity.
Qed.
Lemma Wopen_end_no_size w d t p : tag_ok t = true -> Wopen w d t p ->
  exists w', end_tag_no_size w = Ok w' /\ Wclosed w' (d ++ enc_rec (R0 t p)).
Proof.
  intros Ht (H1 & H2 & H3 & H4). unfold end_tag_no_size. rewrite H1, tag_nonempty by exact Ht.
  eexists. split; [reflexivity|]. split; [reflexivity|]. cbn [w_data].
  rewrite H2, H4, patch_mid by reflexivity. unfold enc_rec, R0, hdr. cbn [rec_tag rec_n rec_p].
  rewrite <- app_assoc. reflexivity.
Qed.

Lemma new_tag_open t w d : tag_ok t = true -> Wc w d -> exists w', new_tag t w = Ok w' /\ Wopen w' d t [].
Proof.
  intros Ht (w1 & E1 & C1 & C2). unfold new_tag, wseq. rewrite E1. unfold pad_tag.
  assert (L : (4 <? String.length t)%nat = false) by (unfold tag_ok in Ht; lia). rewrite L.
  eexists. split; [reflexivity|]. unfold Wopen. cbn. rewrite C2, app_nil_r. repeat split.
Qed.

Lemma Wopen_body w d t p q : Wopen w d t p ->
  Wopen (mkWr (w_data w ++ q) (w_tag_start w) (w_tag w) (w_size w + zlen q)) d t (p ++ q).
Proof.
  intros (H1 & H2 & H3 & H4). unfold Wopen; cbn. rewrite H1, H2, H3, H4, zlen_app. repeat split.
  - lia.
  - repeat (rewrite <- app_assoc || rewrite <- app_comm_cons). reflexivity.
Qed.

Lemma wapp_tagged t body p : tag_ok t = true -> size_ok (zlen p) = true -> wbody body p ->
  wapp (write_tagged_with t body) (enc_rec (R t p)).
Proof.
  intros Ht Hs Hb w d Hw. unfold write_tagged_with, wseq.
  destruct (new_tag_open t w d Ht Hw) as (w1 & E1 & O1). rewrite E1, Hb.
  apply (Wopen_body _ _ _ _ p) in O1. cbn [app] in O1.
  destruct (Wopen_end _ _ _ _ Ht Hs O1) as (w2 & E2 & C2). exists w2. split; [exact E2|apply Wclosed_Wc, C2].
Qed.
Lemma wapp_tagged0 t body p : tag_ok t = true -> wbody body p ->
  wapp (write_tagged_without_size t body) (enc_rec (R0 t p)).
Proof.
  intros Ht Hb w d Hw. unfold write_tagged_without_size, wseq.
  destruct (new_tag_open t w d Ht Hw) as (w1 & E1 & O1). rewrite E1, Hb.
  apply (Wopen_body _ _ _ _ p) in O1. cbn [app] in O1.
  destruct (Wopen_end_no_size _ _ _ _ Ht O1) as (w2 & E2 & C2). exists w2. split; [exact E2|apply Wclosed_Wc, C2].
Qed.

Lemma wapp_end_tag : wapp end_tag [].
Proof. intros w d (w' & E & C). exists w'. rewrite app_nil_r. split; [exact E|apply Wclosed_Wc, C]. Qed.

(** A record whose body is itself a record stream: the inner [new_tag] ends the outer record with size 4. *)
Lemma wapp_nested t body b : tag_ok t = true -> wapp body b ->
  wapp (write_tagged_with t body) (enc_rec (R0 t b)).
Proof.
  intros Ht Hb w d Hw. unfold write_tagged_with, wseq.
  destruct (new_tag_open t w d Ht Hw) as (w1 & E1 & O1). rewrite E1.
  assert (C1 : Wc w1 (d ++ enc_rec (R t []))) by (exact (Wopen_end w1 d t [] Ht eq_refl O1)).
  destruct (Hb w1 _ C1) as (w2 & E2 & C2). rewrite E2.
  destruct C2 as (w3 & E3 & C3). exists w3. split; [exact E3|].
  apply Wclosed_Wc. replace (enc_rec (R0 t b)) with (enc_rec (R t []) ++ b); [rewrite app_assoc; exact C3|].
  unfold enc_rec, R, R0. cbn. rewrite app_nil_r. reflexivity.
Qed.

Lemma wapp_marker t : tag_ok t = true -> wapp (write_marker_tag t) (enc_rec (R t [])).
Proof.
  intros Ht w d Hw. unfold write_marker_tag, wseq.
  destruct (new_tag_open t w d Ht Hw) as (w1 & E1 & O1). rewrite E1.
  destruct (Wopen_end w1 d t [] Ht eq_refl O1) as (w2 & E2 & C2). exists w2. split; [exact E2|apply Wclosed_Wc, C2].
Qed.

Lemma wapp_close : wapp (close true) (enc [endb]).
Proof.
  intros w d Hw. unfold close, wseq. cbn [enc flat_map]. rewrite app_nil_r.
  apply (wapp_marker "ENDB" eq_refl w d Hw).
Qed.

(** The bytes in a writer that was driven by [m] from the empty writer and then closed. *)
Lemma wapp_run m b : wapp m b -> exists w, (m >>> end_tag) wr_new = Ok w /\ w_data w = b.
Proof.
  intros H. destruct (H wr_new [] Wc_new) as (w & E & (w' & E' & C1 & C2)).
  exists w'. unfold wseq. rewrite E, E'. split; [reflexivity|exact C2].
Qed.

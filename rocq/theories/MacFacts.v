(** Proofs about the message authentication code: what is hashed of a stream of records, and that hashing ends. *)
From Verif Require Import Base Text Biff Quantize Common ItemBase Structs GameData Cfb TableInfo Vpx.
From Verif Require Import BaseFacts TextFacts BiffFacts CommonFacts TermFacts ItemBaseFacts RecordFacts SpecBiff SpecStructs StructsProps GameDataProps CfbFacts SpecVpx TableInfoFacts.

(** ** Loops that test for the end first *)
Section ESteps.
Context {S : Type} (h : string -> S -> rd_M S).
(** [h] handles the record when it is called just after the header. *)
Definition EHandles (t : string) (n : Z) (p : bytes) (s s' : S) : Prop :=
  forall pre rest w c, h t s (at_ (pre ++ hdr t n) (p ++ rest) n t w c) = Ok (s', at_ ((pre ++ hdr t n) ++ p) rest 0 t w c).
Inductive ESteps : S -> list rec -> S -> Prop :=
| ESteps_nil s : ESteps s [] s
| ESteps_cons t n p s s' rs s'' :
    rec_ok t n = true -> EHandles t n p s s' -> ESteps s' rs s'' -> ESteps s (mkRec t n p :: rs) s''.
Lemma ESteps_app s rs1 s' rs2 s'' : ESteps s rs1 s' -> ESteps s' rs2 s'' -> ESteps s (rs1 ++ rs2) s''.
Proof. induction 1; intros; cbn; [assumption|]. econstructor; eauto. Qed.
Lemma ESteps_tags s rs s' : ESteps s rs s' -> forall r, In r rs -> tag_ok (rec_tag r) = true.
Proof.
  induction 1 as [|t n p s s1 rs s2 Hr Hh HS IH]; intros r Hin; [destruct Hin|].
  destruct Hin as [<-|Hin]; [|apply IH, Hin]. cbn. unfold rec_ok in Hr.
  apply andb_true_iff in Hr. destruct Hr as [Hr _]. apply andb_true_iff in Hr. apply Hr.
Qed.

Lemma eof_loop_steps s rs s1 s2 : ESteps s rs s1 -> EHandles "ENDB" 0 [] s1 s2 ->
  forall fuel pre t0 w c, (List.length rs + 1 < fuel)%nat -> t0 <> "ENDB"%string ->
  eof_loop fuel h s (at_ pre (enc (rs ++ [endb])) 0 t0 w c) = Ok (s2, at_ (pre ++ enc (rs ++ [endb])) [] 0 "ENDB" w c).
Proof.
  intros HS HE. induction HS as [s|t n p s s' rs s'' Hr Hh HS IH]; intros fuel pre t0 w c Hf Ht0.
  - destruct fuel as [|fuel]; [cbn in Hf; lia|]. cbn [eof_loop app].
    replace (is_eof _) with false.
    2:{ unfold is_eof, at_. cbn [r_data r_pos r_tag]. rewrite (proj2 (String.eqb_neq _ _) Ht0), orb_false_r.
        rewrite zlen_app. change (zlen (enc [endb])) with 8. lia. }
    change (enc [endb]) with (hdr "ENDB" 0). replace (hdr "ENDB" 0) with (hdr "ENDB" 0 ++ []) at 1 by apply app_nil_r.
    erewrite bindM_ok by (apply next_at; reflexivity).
    erewrite bindM_ok. 2:{ apply (HE pre [] w c). }
    destruct fuel as [|fuel]; [cbn in Hf; lia|]. cbn [eof_loop].
    replace (is_eof _) with true. 2:{ unfold is_eof, at_. cbn [r_tag]. rewrite String.eqb_refl, orb_true_r. reflexivity. }
    rewrite app_nil_r. reflexivity.
  - destruct fuel as [|fuel]; [cbn in Hf; lia|]. cbn [eof_loop].
    unfold rec_ok in Hr. apply andb_true_iff in Hr. destruct Hr as [Hr He].
    apply andb_true_iff in Hr. destruct Hr as [Ht Hn].
    cbn [app]. rewrite enc_cons. unfold enc_rec; cbn [rec_tag rec_n rec_p]. rewrite <- !app_assoc.
    replace (is_eof _) with false.
    2:{ unfold is_eof, at_. cbn [r_data r_pos r_tag]. rewrite (proj2 (String.eqb_neq _ _) Ht0), orb_false_r.
        rewrite zlen_app, !zlen_app. unfold hdr. rewrite zlen_app, zlen_w32_bytes.
        pose proof (zlen_nonneg (tag_bytes t)). pose proof (zlen_nonneg p). pose proof (zlen_nonneg (enc (rs ++ [endb]))). lia. }
    erewrite bindM_ok.
    2:{ apply next_at; [exact Ht|exact Hn|]. intros E. apply andb_true_iff in E. destruct E as [_ E]. rewrite E in He. discriminate. }
    erewrite bindM_ok. 2:{ apply Hh. }
    replace (pre ++ hdr t n ++ p ++ enc (rs ++ [endb])) with (((pre ++ hdr t n) ++ p) ++ enc (rs ++ [endb])) by (rewrite <- !app_assoc; reflexivity).
    apply IH; [exact HE|cbn in Hf; lia|]. apply negb_true_iff in He. apply String.eqb_neq, He.
Qed.
Lemma run_eof_loop_steps s rs s1 s2 c : ESteps s rs s1 -> EHandles "ENDB" 0 [] s1 s2 ->
  run_eof_loop h s c (enc (rs ++ [endb])) = Ok s2.
Proof.
  intros HS HE. unfold run_eof_loop. rewrite rd_new_at at 2. erewrite eof_loop_steps; [reflexivity|exact HS|exact HE| |discriminate].
  unfold loop_fuel, rd_new. cbn [r_data]. rewrite enc_app, zlen_app. change (zlen (enc [endb])) with 8.
  pose proof (enc_length rs (ESteps_tags _ _ _ HS)). unfold zlen in *. lia.
Qed.
End ESteps.

(** ** What is hashed of a record *)
Lemma mac_data t p acc : (t =? "CODE")%string = false -> tag_ok t = true -> EHandles mac_record t (zlen p) p acc (acc ++ tag_bytes t ++ p).
Proof.
  intros Hc Ht pre rest w c. unfold mac_record. rewrite Hc. unfold rbindM, get_record_data, at_. cbn [negb andb r_data r_pos r_rem r_tag r_warn r_checked].
  unfold hdr. pose proof (tag_bytes_len t Ht) as HL.
  replace (zlen (pre ++ w32_bytes (Z_to_w32 (4 + zlen p)) ++ tag_bytes t)) with (zlen (pre ++ w32_bytes (Z_to_w32 (4 + zlen p))) + 4)
    by (rewrite !zlen_app; lia).
  replace ((pre ++ w32_bytes (Z_to_w32 (4 + zlen p)) ++ tag_bytes t) ++ p ++ rest)
    with ((pre ++ w32_bytes (Z_to_w32 (4 + zlen p))) ++ (tag_bytes t ++ p) ++ rest) by (rewrite <- !app_assoc; reflexivity).
  set (q := pre ++ w32_bytes (Z_to_w32 (4 + zlen p))).
  replace (zlen q + 4 - 4) with (zlen q) by lia. replace (zlen q + 4 + zlen p - zlen q) with (zlen (tag_bytes t ++ p)) by (rewrite zlen_app; lia).
  rewrite slice_mid by reflexivity. unfold rret, set_rem, set_pos. cbn [r_data r_pos r_rem r_tag r_warn r_checked]. do 3 f_equal.
  - unfold q. rewrite <- !app_assoc. reflexivity.
  - unfold q. rewrite !zlen_app. lia.
Qed.
Lemma mac_code d acc : fits (zlen d) = true -> EHandles mac_record "CODE" 0 (lp_bytes d) acc (acc ++ list_byte_of_string "CODE" ++ d).
Proof.
  intros Hd pre rest w c. unfold mac_record. cbn [String.eqb Ascii.eqb Bool.eqb]. unfold lp_bytes. rewrite <- app_assoc.
  at_step get_u32_nru_at. unfold get_no_remaining_update. unfold fits in Hd. pose proof (zlen_nonneg d).
  erewrite bindM_ok by (apply take_at; rewrite w32_to_Z_small by lia; reflexivity).
  unfold rret. rewrite <- !app_assoc. reflexivity.
Qed.
Lemma rec_ok_valid t p : valid_record (t, p) -> rec_ok t (zlen p) = true.
Proof.
  intros H. destruct (valid_rec_ok t p H) as (H1 & H2 & H3). unfold rec_ok. rewrite H1, H2. cbn [andb]. apply negb_true_iff, String.eqb_neq, H3.
Qed.
Lemma ESteps_mac rs : Forall valid_record rs -> ~ In "CODE"%string (map fst rs) ->
  forall acc, ESteps mac_record acc (map rec_of rs) (acc ++ hashed_records rs).
Proof.
  induction 1 as [|[t p] rs H HF IH]; intros HC acc; cbn [map hashed_records flat_map].
  - rewrite app_nil_r. constructor.
  - cbn [map fst] in HC. change (rec_of (t, p)) with (mkRec t (zlen p) p). eapply ESteps_cons; [apply rec_ok_valid, H| |].
    + apply mac_data; [apply String.eqb_neq; intros E; apply HC; left; exact E|apply tag_ok_valid, H].
    + destruct H as ((Hl & _) & _). cbn [fst] in Hl. rewrite tag4_tag_bytes by lia.
      change (flat_map (fun r => tag4 (fst r) ++ snd r) rs) with (hashed_records rs).
      cbn [fst snd]. rewrite (app_assoc acc (tag4 t ++ p)).
      apply IH. intros E. apply HC. right. exact E.
Qed.
Lemma mac_endb acc : EHandles mac_record "ENDB" 0 [] acc (acc ++ tag4 "ENDB").
Proof. pose proof (mac_data "ENDB" [] acc eq_refl eq_refl) as H. rewrite app_nil_r in H. exact H. Qed.
(** A stream of records is hashed without the sizes of the records. *)
Lemma mac_stream rs c : Forall valid_record rs -> ~ In "CODE"%string (map fst rs) ->
  run_eof_loop mac_record [] c (stream_bytes rs) = Ok (hashed_stream rs).
Proof.
  intros H HC. rewrite <- stream_enc by exact H. eapply run_eof_loop_steps; [apply (ESteps_mac rs H HC [])|apply mac_endb].
Qed.
Lemma mac_game_data a d b c : Forall valid_record a -> Forall valid_record b -> ~ In "CODE"%string (map fst (a ++ b)) -> fits (zlen d) = true ->
  run_eof_loop mac_record [] c (game_data_layout a d b) = Ok (hashed_game_data a d b).
Proof.
  intros Ha Hb HC Hd. rewrite map_app in HC.
  assert (V : forall l, Forall valid_record l -> Forall (fun r => valid_tag (fst r)) l) by (intros l; apply Forall_impl; intros r H; apply H).
  rewrite <- layout_enc by (apply V; assumption). eapply run_eof_loop_steps.
  - eapply ESteps_app; [apply (ESteps_mac a Ha); intros E; apply HC, in_or_app; left; exact E|].
    unfold R0. eapply ESteps_cons; [reflexivity|apply mac_code, Hd|].
    apply (ESteps_mac b Hb); intros E; apply HC, in_or_app; right; exact E.
  - unfold hashed_game_data. cbn [app]. intros pre rest w c'. rewrite (mac_endb _ pre rest w c'). rewrite <- !app_assoc. reflexivity.
Qed.

(** ** The values named by the custom info tags *)
Section Props.
Variable up : N -> N.
Variable f : cfile.
Definition tag_value (s : rstring) : bytes := match cf_node up [TableInfoStg; s] f with Some (Stream d) => d | _ => [] end.
Lemma mac_property_tag s acc : string_fits s -> plain_component s -> cf_node up [TableInfoStg; s] f <> Some Storage ->
  EHandles (mac_property up f) "CUST" (zlen (string_payload s)) (string_payload s) acc (acc ++ tag_value s).
Proof.
  intros Hs Hp Hn pre rest w c. apply string_fits_iff in Hs. rewrite <- string_payload_eq.
  unfold mac_property. cbn [String.eqb Ascii.eqb Bool.eqb].
  erewrite bindM_ok by (apply get_string_at; [exact Hs|]; unfold string_bytes; rewrite lp_len, zlen_latin1_bytes; lia).
  rewrite Z.sub_diag. rewrite (formatted_plain _ _ Hp). unfold cf_exists, tag_value, cf_get.
  destruct (cf_node up [TableInfoStg; s] f) as [[|d]|]; [congruence| |].
  - reflexivity.
  - rewrite app_nil_r. reflexivity.
Qed.
Lemma ESteps_property tags : Forall (fun s => string_fits s /\ plain_component s /\ cf_node up [TableInfoStg; s] f <> Some Storage) tags ->
  forall acc, ESteps (mac_property up f) acc (map rec_of (map (fun s => ("CUST"%string, string_payload s)) tags)) (acc ++ flat_map tag_value tags).
Proof.
  induction 1 as [|s tags (H1 & H2 & H3) HF IH]; intros acc; cbn [map flat_map].
  - rewrite app_nil_r. constructor.
  - change (rec_of ("CUST"%string, string_payload s)) with (mkRec "CUST" (zlen (string_payload s)) (string_payload s)). eapply ESteps_cons; [|apply mac_property_tag; assumption|rewrite app_assoc; apply IH].
    apply rec_ok_valid. split; [|split]; [split; [cbn; lia|cbn; intuition discriminate]|discriminate|].
    cbn [snd]. apply string_fits_iff in H1. rewrite <- string_payload_eq. unfold string_bytes. rewrite lp_len, zlen_latin1_bytes.
    unfold str_ok, fits in H1. change (2 ^ 32) with 4294967296. lia.
Qed.
Lemma cust_valid tags : Forall string_fits tags -> Forall valid_record (map (fun s => ("CUST"%string, string_payload s)) tags).
Proof.
  induction 1 as [|s tags H1 HF IH]; cbn [map]; constructor; [|exact IH].
  split; [|split]; [split; [cbn; lia|cbn; intuition discriminate]|discriminate|].
  cbn [snd]. apply string_fits_iff in H1. rewrite <- string_payload_eq. unfold string_bytes. rewrite lp_len, zlen_latin1_bytes.
  unfold str_ok, fits in H1. change (2 ^ 32) with 4294967296. lia.
Qed.
Lemma property_endb acc : EHandles (mac_property up f) "ENDB" 0 [] acc acc.
Proof.
  intros pre rest w c. unfold mac_property. cbn [String.eqb Ascii.eqb Bool.eqb]. unfold rbindM, skip_tag, rret, set_rem, set_pos, at_.
  cbn [r_data r_pos r_rem r_tag r_warn r_checked app]. rewrite Z.add_0_r, app_nil_r. reflexivity.
Qed.
Lemma mac_tag_values tags c : Forall (fun s => string_fits s /\ plain_component s /\ cf_node up [TableInfoStg; s] f <> Some Storage) tags ->
  run_eof_loop (mac_property up f) [] c (stream_bytes (map (fun s => ("CUST"%string, string_payload s)) tags)) = Ok (flat_map tag_value tags).
Proof.
  intros H. rewrite <- stream_enc by (apply cust_valid; eapply Forall_impl; [|exact H]; intros s Hs; apply Hs).
  eapply run_eof_loop_steps; [apply (ESteps_property tags H [])|apply property_endb].
Qed.
End Props.

(** ** Hashing ends *)
Lemma eof_loop_term {S} (h : string -> S -> rd_M S) : (forall t s, Term (h t s)) ->
  forall fuel s B r, 0 <= B -> Safe B r -> zlen (r_data r) + 4 < B + 8 * Z.of_nat fuel -> eof_loop (Datatypes.S fuel) h s r <> OutOfFuel.
Proof.
  intros Hh. induction fuel as [|fuel IH]; intros s B r HB HS HF.
  - cbn [eof_loop]. replace (is_eof r) with true; [discriminate|]. unfold is_eof. destruct HS as [H1 H2].
    replace (zlen (r_data r) <=? r_pos r) with true by lia. reflexivity.
  - change (eof_loop (Datatypes.S (Datatypes.S fuel)) h s r) with
      (if is_eof r then Ok (s, r) else (next ;;; fun r1 => (s' <- h (r_tag r1) s ;; eof_loop (Datatypes.S fuel) h s') r1) r).
    destruct (is_eof r) eqn:Ee; [discriminate|]. unfold rbindM. pose proof (next_progress B r HB HS) as HN.
    destruct (next r) as [[u r1]|e]; [|congruence]. destruct HN as (HS1 & HP1 & HD1).
    pose proof (Hh (r_tag r1) s (B + 8) r1 ltac:(lia) HS1) as HT.
    destruct (h (r_tag r1) s r1) as [[s' r2]|e]; [|congruence]. destruct HT as (HS2 & HD2).
    apply (IH s' (B + 8) r2); [lia|exact HS2|rewrite HD2, HD1; lia].
Qed.
Lemma run_eof_loop_term {S} (h : string -> S -> rd_M S) s c d : (forall t s, Term (h t s)) -> run_eof_loop h s c d <> OutOfFuel.
Proof.
  intros Hh. unfold run_eof_loop. pose proof (eof_loop_term h Hh (loop_fuel (rd_new c d)) s 0 (rd_new c d)) as H.
  destruct (eof_loop _ _ _ _) as [[x r]|e]; [discriminate|]. intros [= ->]. apply H; [lia|split; cbn; lia| |reflexivity].
  unfold loop_fuel. cbn [r_data rd_new]. pose proof (zlen_nonneg d). lia.
Qed.
Lemma Term_get_record_data_tag : Term (get_record_data true).
Proof.
  intros B r HB [H1 H2]. unfold get_record_data. cbn [negb andb].
  pose proof (slice_no_oof (r_data r) (r_pos r - 4) (r_pos r + r_rem r - (r_pos r - 4))) as HO.
  destruct (slice _ _ _) as [b|f]; [|intros ->; apply HO; reflexivity].
  unfold Safe, set_rem, set_pos; cbn. repeat split; lia.
Qed.
Lemma Term_mac_record t acc : Term (mac_record t acc).
Proof.
  unfold mac_record. destruct (t =? "CODE")%string.
  - apply Term_bind; [apply Term_get_u32_nru|]. intros n. apply Term_bind; [apply Term_take, w32_to_Z_nonneg|]. intros d. apply Term_ret.
  - apply Term_bind; [apply Term_get_record_data_tag|]. intros d. apply Term_ret.
Qed.
Lemma Term_mac_property up f t acc : Term (mac_property up f t acc).
Proof.
  unfold mac_property. destruct (t =? "CUST")%string.
  - apply Term_bind; [apply Term_get_string|]. intros name. destruct (formatted_chain _ _) as [p|e]; [|apply Term_ret].
    destruct (cf_exists up p f); [|apply Term_ret]. apply Term_bind; [|intros d; apply Term_ret].
    apply Term_lift. unfold cf_get, no_oof. destruct (cf_node up p f) as [[|]|]; discriminate.
  - apply Term_bind; [apply Term_skip_tag|]. intros _. apply Term_ret.
Qed.

(** ** Collections *)
Section Mac.
Variable up : N -> N.
Variable md2 : bytes -> bytes.

Lemma fold_digits n : fold_name up (dec_text n) = dec_text n.
Proof.
  pose proof (dec_text_digits n) as H. unfold fold_name. induction (dec_text n) as [|c s IH]; [reflexivity|].
  inversion H; subst. cbn [map]. rewrite IH by assumption. f_equal. unfold fold_char, ascii_upper_char.
  replace (c <? 128)%N with true by lia. replace ((97 <=? c) && (c <=? 122))%N with false by lia. reflexivity.
Qed.
Lemma fold_name_app a b : fold_name up (a ++ b) = fold_name up a ++ fold_name up b.
Proof. apply map_app. Qed.
Lemma fpath_numbered prefix i : fpath up (stream_path prefix i) = [fold_name up GameStg; fold_name up (lit prefix) ++ dec_text i].
Proof.
  unfold stream_path. change (fpath up [GameStg; lit prefix ++ dec_text i]) with [fold_name up GameStg; fold_name up (lit prefix ++ dec_text i)].
  rewrite fold_name_app, fold_digits. reflexivity.
Qed.
Lemma mac_collections_more n k i c f : mac_collections up n i c f <> OutOfFuel -> mac_collections up (n + k) i c f = mac_collections up n i c f.
Proof.
  revert i. induction n as [|n IH]; intros i H; [exfalso; apply H; reflexivity|]. cbn [Nat.add mac_collections] in *.
  destruct (cf_exists up _ f); [|reflexivity]. destruct (cf_get up _ f) as [d|e]; [|reflexivity]. cbn [rbind] in *.
  destruct (run_eof_loop mac_record [] c d) as [x|e]; [|reflexivity]. cbn [rbind] in *. rewrite IH; [reflexivity|].
  intros E. rewrite E in H. apply H. reflexivity.
Qed.
Lemma mac_record_loop_term c d : run_eof_loop mac_record [] c d <> OutOfFuel.
Proof. apply run_eof_loop_term, Term_mac_record. Qed.
Lemma cf_get_no_oof p f : cf_get up p f <> OutOfFuel.
Proof. unfold cf_get. destruct (cf_node up p f) as [[|]|]; discriminate. Qed.
Lemma mac_collections_oof n : forall i c f, mac_collections up n i c f = OutOfFuel ->
  forall j, (i <= j < i + N.of_nat n)%N -> In (fpath up (stream_path "Collection" j)) (keys up f).
Proof.
  induction n as [|n IH]; intros i c f E j Hj; [lia|]. cbn [mac_collections] in E.
  destruct (cf_exists up (stream_path "Collection" i) f) eqn:Ex; [|discriminate].
  destruct (N.eq_dec i j) as [<-|Hne].
  - unfold cf_exists in Ex. destruct (in_dec (list_eq_dec (list_eq_dec N.eq_dec)) (fpath up (stream_path "Collection" i)) (keys up f)) as [Hin|Hin]; [exact Hin|].
    rewrite cf_node_none in Ex; [discriminate|discriminate|exact Hin].
  - pose proof (cf_get_no_oof (stream_path "Collection" i) f) as H1. destruct (cf_get up _ f) as [d|e]; [|cbn [rbind] in E; congruence]. cbn [rbind] in E.
    pose proof (mac_record_loop_term c d) as H2. destruct (run_eof_loop mac_record [] c d) as [x|e]; [|cbn [rbind] in E; congruence]. cbn [rbind] in E.
    destruct (mac_collections up n (i + 1) c f) as [xs|e] eqn:E2; [discriminate|]. cbn [rbind] in E. injection E as ->.
    apply (IH (i + 1)%N c f E2). lia.
Qed.
Fixpoint collection_keys (i : N) (n : nat) : list cpath := match n with O => [] | S n' => fpath up (stream_path "Collection" i) :: collection_keys (i + 1) n' end.
Lemma collection_keys_in n : forall i k, In k (collection_keys i n) -> exists j, (i <= j < i + N.of_nat n)%N /\ k = fpath up (stream_path "Collection" j).
Proof.
  induction n as [|n IH]; intros i k H; [destruct H|]. destruct H as [<-|H]; [exists i; split; [lia|reflexivity]|].
  destruct (IH _ _ H) as (j & Hj & E). exists j. split; [lia|exact E].
Qed.
Lemma collection_keys_nodup n : forall i, NoDup (collection_keys i n).
Proof.
  induction n as [|n IH]; intros i; cbn [collection_keys]; constructor; [|apply IH].
  intros H. destruct (collection_keys_in _ _ _ H) as (j & Hj & E). rewrite !fpath_numbered in E. injection E as E.
  apply dec_text_inj in E. lia.
Qed.
Lemma mac_collections_term i c f : mac_collections up (S (List.length f)) i c f <> OutOfFuel.
Proof.
  intros E.   assert (HI : incl (collection_keys i (S (List.length f))) (keys up f)).
  { intros k Hk. destruct (collection_keys_in _ _ _ Hk) as (j & Hj & ->). eapply mac_collections_oof; [exact E|exact Hj]. }
  pose proof (NoDup_incl_length (collection_keys_nodup (S (List.length f)) i) HI) as H. unfold keys in H. rewrite map_length in H.
  assert (L : forall n i, List.length (collection_keys i n) = n) by (induction n as [|n IH]; intros i0; cbn; [reflexivity|rewrite IH; reflexivity]).
  rewrite L in H. lia.
Qed.
Lemma mac_collections_are c f : forall rss i, collections_are up f i rss ->
  Forall (fun rs => Forall valid_record rs /\ ~ In "CODE"%string (map fst rs)) rss ->
  mac_collections up (S (List.length rss)) i c f = Ok (flat_map hashed_stream rss).
Proof.
  induction rss as [|rs rss IH]; intros i H HF; cbn [collections_are] in H; cbn [List.length mac_collections flat_map].
  - unfold cf_exists, stream_path. rewrite H. reflexivity.
  - destruct H as [H1 H2]. inversion HF as [|rs' rss' [F1 F2] F3]; subst. unfold cf_exists, cf_get, stream_path. rewrite H1. cbn [rbind].
    rewrite mac_stream by assumption. cbn [rbind]. specialize (IH _ H2 F3). cbn [mac_collections] in IH. unfold cf_exists, cf_get, stream_path in IH.
    rewrite IH. reflexivity.
Qed.
Lemma mac_collections_file c f rss : collections_are up f 0 rss ->
  Forall (fun rs => Forall valid_record rs /\ ~ In "CODE"%string (map fst rs)) rss ->
  mac_collections up (S (List.length f)) 0 c f = Ok (flat_map hashed_stream rss).
Proof.
  intros H1 H2. pose proof (mac_collections_are c f rss 0 H1 H2) as E. pose proof (mac_collections_term 0 c f) as T.
  rewrite <- (mac_collections_more _ (S (List.length rss)) _ _ _ T). rewrite Nat.add_comm. rewrite mac_collections_more; [exact E|]. rewrite E. discriminate.
Qed.

(** ** The whole code *)
Lemma mac_bytes_content p f : cf_node up p f <> Some Storage -> mac_bytes up p f = Ok (content up p f).
Proof. intros H. unfold mac_bytes, content, cf_exists, cf_get. destruct (cf_node up p f) as [[|d]|]; [congruence|reflexivity|reflexivity]. Qed.
Lemma mac_formula checked f tags cols before script after : hashable up f tags cols ->
  cf_node up [GameStg; lit "GameData"] f = Some (Stream (game_data_layout before script after)) ->
  Forall valid_record before -> Forall valid_record after -> ~ In "CODE"%string (map fst (before ++ after)) -> data_fits script ->
  generate_mac up md2 checked f = Ok (md2 (hashed_file up f tags (hashed_game_data before script after) cols)).
Proof.
  intros (H1 & H2 & H3 & H4 & H5 & H6) HG Hb Ha HC Hs. unfold generate_mac, mac_content.
  rewrite !mac_bytes_content by (exact H1 || apply H2). cbn [rbind].
  assert (E : exists t p, mac_biff up [GameStg; lit "CustomInfoTags"] checked f = Ok t /\ mac_properties up checked f = Ok p /\
            t ++ p = match tags with Some l => hashed_tags up f l | None => [] end).
  { unfold mac_biff, mac_properties, cf_exists, cf_get. rewrite H3. destruct tags as [l|]; cbn [option_map rbind].
    - cbn [option_all] in H4.
      assert (F1 : Forall string_fits l) by (eapply Forall_impl; [|exact H4]; intros s Hx; apply Hx).
      exists (hashed_stream (tag_records l)), (flat_map (tag_value up f) l). split; [|split].
      + apply mac_stream; [apply cust_valid, F1|]. unfold tag_records. rewrite map_map. cbn [fst]. intros Hin. apply in_map_iff in Hin. destruct Hin as (x & Ex & _). discriminate.
      + apply mac_tag_values. eapply Forall_impl; [|exact H4]. intros s [Hx Hy]. split; [exact Hx|split; [exact Hy|apply H2]].
      + reflexivity.
    - exists [], []. repeat split. }
  destruct E as (t & p & Et & Ep & Etp). rewrite Et. cbn [rbind]. rewrite Ep. cbn [rbind].
  unfold mac_biff at 1, cf_exists, cf_get. rewrite HG. cbn [rbind].
  rewrite mac_game_data; [|exact Hb|exact Ha|exact HC|apply size_fits_iff, Hs]. cbn [rbind].
  rewrite (mac_collections_file checked f cols H5 H6). cbn [rbind]. do 2 f_equal. unfold hashed_file. rewrite <- Etp.
  cbn [flat_map hashed_names]. rewrite <- !app_assoc. reflexivity.
Qed.
(** Computing the code ends for every file. *)
Lemma mac_biff_no_oof p checked f : mac_biff up p checked f <> OutOfFuel.
Proof.
  unfold mac_biff. destruct (cf_exists up p f); [|discriminate]. pose proof (cf_get_no_oof p f). destruct (cf_get up p f) as [d|e]; cbn [rbind]; [apply mac_record_loop_term|exact H].
Qed.
Lemma mac_bytes_no_oof p f : mac_bytes up p f <> OutOfFuel.
Proof. unfold mac_bytes. destruct (cf_exists up p f); [apply cf_get_no_oof|discriminate]. Qed.
Lemma mac_properties_no_oof checked f : mac_properties up checked f <> OutOfFuel.
Proof.
  unfold mac_properties. destruct (cf_exists up _ f); [|discriminate]. pose proof (cf_get_no_oof [GameStg; lit "CustomInfoTags"] f).
  destruct (cf_get up _ f) as [d|e]; cbn [rbind]; [apply run_eof_loop_term, Term_mac_property|exact H].
Qed.
Lemma bind_no_oof {A B} (m : res A) (k : A -> res B) : m <> OutOfFuel -> (forall x, k x <> OutOfFuel) -> (x <~ m ;; k x) <> OutOfFuel.
Proof. intros Hm Hk. destruct m as [x|e]; cbn [rbind]; [apply Hk|congruence]. Qed.
Lemma generate_mac_ends checked f : generate_mac up md2 checked f <> OutOfFuel.
Proof.
  unfold generate_mac. apply bind_no_oof; [|discriminate]. unfold mac_content.
  repeat (apply bind_no_oof; [first [apply mac_bytes_no_oof|apply mac_biff_no_oof|apply mac_properties_no_oof|apply mac_collections_term]|intros ?]).
  discriminate.
Qed.

(** ** Files that agree on the hashed streams *)
Definition Agree (f g : cfile) : Prop :=
  (forall n, In n ["Version"; "CustomInfoTags"]%string -> cf_node up [GameStg; lit n] f = cf_node up [GameStg; lit n] g) /\
  (forall n, cf_node up [TableInfoStg; n] f = cf_node up [TableInfoStg; n] g) /\
  (forall i, cf_node up (stream_path "Collection" i) f = cf_node up (stream_path "Collection" i) g).
Lemma collections_agree f g : (forall i, cf_node up (stream_path "Collection" i) f = cf_node up (stream_path "Collection" i) g) ->
  forall rss i, collections_are up f i rss -> collections_are up g i rss.
Proof.
  intros H. unfold stream_path in H. induction rss as [|rs rss IH]; intros i; cbn [collections_are]; rewrite <- H; [auto|]. intros [H1 H2]. auto.
Qed.
Lemma hashable_agree f g tags cols : Agree f g -> hashable up f tags cols -> hashable up g tags cols.
Proof.
  intros (A1 & A2 & A3) (H1 & H2 & H3 & H4 & H5 & H6). pose proof (A1 "Version"%string (or_introl eq_refl)) as AV.
  pose proof (A1 "CustomInfoTags"%string (or_intror (or_introl eq_refl))) as AC.
  split; [rewrite <- AV; exact H1|]. split; [intros n; rewrite <- A2; apply H2|]. split; [rewrite <- AC; exact H3|]. split; [exact H4|].
  split; [exact (collections_agree f g A3 _ _ H5)|exact H6].
Qed.
Lemma hashed_agree f g tags d cols : Agree f g -> hashed_file up f tags d cols = hashed_file up g tags d cols.
Proof.
  intros (A1 & A2 & A3). pose proof (A1 "Version"%string (or_introl eq_refl)) as AV. unfold hashed_file.
  assert (EC : forall n, content up [TableInfoStg; n] f = content up [TableInfoStg; n] g) by (intros n; unfold content; rewrite A2; reflexivity).
  assert (EV : content up [GameStg; lit "Version"] f = content up [GameStg; lit "Version"] g) by (unfold content; rewrite AV; reflexivity).
  rewrite EV. cbn [flat_map hashed_names]. rewrite !EC.
  destruct tags as [l|]; [|reflexivity]. unfold hashed_tags.
  assert (EL : flat_map (fun t => content up [TableInfoStg; t] f) l = flat_map (fun t => content up [TableInfoStg; t] g) l) by (apply flat_map_ext; intros t; apply EC).
  rewrite EL. reflexivity.
Qed.
(** Changing the game data or the code itself does not touch the other hashed streams. *)
Definition unhashed (p : cpath) : Prop := fpath up p = fpath up [GameStg; lit "GameData"] \/ fpath up p = fpath up [GameStg; lit "MAC"].
Lemma agree_set p n f : p <> [] -> unhashed p -> Agree f (cf_set up p n f).
Proof.
  intros Hp Hu. assert (G : forall q, q <> [] -> fpath up q <> fpath up [GameStg; lit "GameData"] -> fpath up q <> fpath up [GameStg; lit "MAC"] ->
    cf_node up q f = cf_node up q (cf_set up p n f)).
  { intros q Hq H1 H2. rewrite cf_node_set by assumption. destruct (path_eqb up q p) eqn:E; [|reflexivity].
    apply path_eqb_iff in E. destruct Hu as [Hu|Hu]; congruence. }
  split; [|split].
  - intros m [<-|[<-|[]]]; apply G; discriminate.
  - intros m. apply G; discriminate.
  - intros i. apply G; [discriminate| |]; rewrite fpath_numbered; discriminate.
Qed.
Lemma agree_app p n f : p <> [] -> unhashed p -> Agree f (f ++ [(p, n)]).
Proof.
  intros Hp Hu. assert (G : forall q, q <> [] -> fpath up q <> fpath up [GameStg; lit "GameData"] -> fpath up q <> fpath up [GameStg; lit "MAC"] ->
    cf_node up q f = cf_node up q (f ++ [(p, n)])).
  { intros q Hq H1 H2. rewrite !cf_node_find, cf_find_app by assumption. destruct (cf_find up q f); [reflexivity|]. cbn [cf_find].
    destruct (path_eqb up q p) eqn:E; [|reflexivity]. apply path_eqb_iff in E. destruct Hu as [Hu|Hu]; congruence. }
  split; [|split].
  - intros m [<-|[<-|[]]]; apply G; discriminate.
  - intros m. apply G; discriminate.
  - intros i. apply G; [discriminate| |]; rewrite fpath_numbered; discriminate.
Qed.
End Mac.

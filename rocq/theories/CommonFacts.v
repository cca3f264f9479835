(** Facts about getters, handlers and writers used by all record readers and writers. *)
From Verif Require Import Base Text Biff Quantize Common BaseFacts TextFacts BiffFacts.

(** ** Reading back exactly the bytes of a value *)
(** [g] reads the value [x] from the bytes [p]. *)
Definition Gets {A} (g : rd_M A) (p : bytes) (x : A) : Prop :=
  forall pre rest n t w c, zlen p <= n ->
    g (at_ pre (p ++ rest) n t w c) = Ok (x, at_ (pre ++ p) rest (n - zlen p) t w c).
(** Same, for the readers that do not touch the record's remaining count. *)
Definition Gets0 {A} (g : rd_M A) (p : bytes) (x : A) : Prop :=
  forall pre rest n t w c,
    g (at_ pre (p ++ rest) n t w c) = Ok (x, at_ (pre ++ p) rest n t w c).

Lemma Gets_ret {A} (x : A) : Gets (rret x) [] x.
Proof. intros pre rest n t w c _. unfold rret. rewrite app_nil_r, zlen_nil, Z.sub_0_r. reflexivity. Qed.
Lemma Gets_bind {A B} (g : rd_M A) (k : A -> rd_M B) p q x y :
  Gets g p x -> Gets (k x) q y -> Gets (rbindM g k) (p ++ q) y.
Proof.
  intros Hg Hk pre rest n t w c Hn. rewrite zlen_app in Hn. pose proof (zlen_nonneg q).
  unfold rbindM. rewrite <- app_assoc. rewrite Hg by lia. rewrite Hk by lia. rewrite <- app_assoc, zlen_app.
  replace (n - zlen p - zlen q) with (n - (zlen p + zlen q)) by lia. reflexivity.
Qed.
Lemma Gets_map {A B} (g : rd_M A) (k : A -> B) p x :
  Gets g p x -> Gets (y <- g ;; rret (k y)) p (k x).
Proof.
  intros H pre rest n t w c Hn. unfold rbindM. rewrite H by lia. reflexivity.
Qed.
Lemma Gets_lift {A B} (g : rd_M A) (k : A -> res B) p x y :
  Gets g p x -> k x = Ok y -> Gets (z <- g ;; rlift (k z)) p y.
Proof.
  intros H Hk pre rest n t w c Hn. unfold rbindM, rlift. rewrite H by lia. rewrite Hk. reflexivity.
Qed.

Lemma Gets_f32 x : Gets get_f32 (w32_bytes x) x.
Proof. intros pre rest n t w c H. rewrite zlen_w32_bytes in *. apply get_f32_at; lia. Qed.
Lemma Gets_u32 x : Gets get_u32 (w32_bytes x) x.
Proof. intros pre rest n t w c H. rewrite zlen_w32_bytes in *. apply get_u32_at; lia. Qed.
Lemma Gets_i32 x : Gets get_i32 (w32_bytes x) x.
Proof. intros pre rest n t w c H. rewrite zlen_w32_bytes in *. apply get_i32_at; lia. Qed.
Lemma Gets_32 x : Gets get_32 (w32_bytes x) x.
Proof. intros pre rest n t w c H. rewrite zlen_w32_bytes in *. apply get_32_at; lia. Qed.
Lemma Gets_u8 x : Gets get_u8 [x] x.
Proof. intros pre rest n t w c H. change (zlen [x]) with 1 in *. cbn [app]. apply get_u8_at; lia. Qed.
Lemma Gets_bool x : Gets get_bool (bool_bytes x) x.
Proof.
  intros pre rest n t w c H. assert (E : zlen (bool_bytes x) = 4) by (destruct x; reflexivity).
  rewrite E in *. apply get_bool_at; lia.
Qed.
Lemma Gets_string x : str_ok x = true -> Gets get_string (string_bytes x) x.
Proof. intros Hx pre rest n t w c H. apply get_string_at; [exact Hx|]. rewrite zlen_string_bytes in H. lia. Qed.
Lemma Gets_wstring x : wstr_ok x = true -> Gets get_wide_string (wstring_bytes x) x.
Proof. intros Hx pre rest n t w c H. apply get_wide_string_at; [exact Hx|lia]. Qed.

Lemma Gets_enum {A} (of_u32 : u32 -> res A) x (e : A) :
  of_u32 x = Ok e -> Gets (z <- get_u32 ;; rlift (of_u32 z)) (w32_bytes x) e.
Proof. intros. eapply Gets_lift; [apply Gets_u32|assumption]. Qed.

Lemma Gets_enum_i32 {A} (of_i32 : i32 -> res A) x (e : A) :
  of_i32 x = Ok e -> Gets (z <- get_i32 ;; rlift (of_i32 z)) (w32_bytes x) e.
Proof. intros. eapply Gets_lift; [apply Gets_i32|assumption]. Qed.

Definition v2_bytes (v : Vertex2D) : bytes := w32_bytes (v2_x v) ++ w32_bytes (v2_y v).
Lemma Gets_v2 v : Gets Vertex2D_read (v2_bytes v) v.
Proof.
  unfold Vertex2D_read, v2_bytes. eapply Gets_bind; [apply Gets_f32|]. cbn beta.
  destruct v as [x y]; cbn [v2_x v2_y]. apply (Gets_map _ (fun y => mkVertex2D x y)), Gets_f32.
Qed.
Definition v3u_bytes (v : Vertex3D) : bytes := w32_bytes (v3_x v) ++ w32_bytes (v3_y v) ++ w32_bytes (v3_z v).
Lemma Gets_v3u v : Gets Vertex3D_read_unpadded (v3u_bytes v) v.
Proof.
  unfold Vertex3D_read_unpadded, v3u_bytes. do 2 (eapply Gets_bind; [apply Gets_f32|]; cbn beta).
  destruct v as [x y z]; cbn [v3_x v3_y v3_z]. apply (Gets_map _ (fun z => mkVertex3D x y z)), Gets_f32.
Qed.
Definition v3_bytes (v : Vertex3D) : bytes :=
  w32_bytes (v3_x v) ++ w32_bytes (v3_y v) ++ w32_bytes (v3_z v) ++ w32_bytes f32_0.
Lemma Gets_v3 v : Gets Vertex3D_read (v3_bytes v) v.
Proof.
  unfold Vertex3D_read, v3_bytes. do 3 (eapply Gets_bind; [apply Gets_f32|]; cbn beta).
  destruct v as [x y z]; cbn [v3_x v3_y v3_z]. apply (Gets_map _ (fun _ => mkVertex3D x y z) _ f32_0), Gets_f32.
Qed.
Definition v4_bytes (v : Vertex4D) : bytes :=
  w32_bytes (v4_x v) ++ w32_bytes (v4_y v) ++ w32_bytes (v4_z v) ++ w32_bytes (v4_w v).
Lemma Gets_v4 v : Gets Vertex4D_read (v4_bytes v) v.
Proof.
  unfold Vertex4D_read, v4_bytes. do 3 (eapply Gets_bind; [apply Gets_f32|]; cbn beta).
  destruct v as [x y z w]; cbn [v4_x v4_y v4_z v4_w]. apply (Gets_map _ (fun w => mkVertex4D x y z w)), Gets_f32.
Qed.
Definition color_bytes (c : Color) : bytes := [c_r c; c_g c; c_b c; c_unused c].
Lemma Gets_color c : Gets Color_read (color_bytes c) c.
Proof.
  unfold Color_read, color_bytes.
  change [c_r c; c_g c; c_b c; c_unused c] with ([c_r c] ++ [c_g c] ++ [c_b c] ++ [c_unused c]).
  do 3 (eapply Gets_bind; [apply Gets_u8|]; cbn beta).
  destruct c as [r g b u]; cbn [c_r c_g c_b c_unused]. apply (Gets_map _ (fun u => mkColor r g b u)), Gets_u8.
Qed.

(** ** Writing *)
Lemma wapp_f32 t x : tag_ok t = true -> wapp (write_tagged_f32 t x) (enc_rec (R t (w32_bytes x))).
Proof. intros. apply wapp_tagged; [assumption|reflexivity|apply wbody_f32]. Qed.
Lemma wapp_u32 t x : tag_ok t = true -> wapp (write_tagged_u32 t x) (enc_rec (R t (w32_bytes x))).
Proof. intros. apply wapp_tagged; [assumption|reflexivity|apply wbody_u32]. Qed.
Lemma wapp_i32 t x : tag_ok t = true -> wapp (write_tagged_i32 t x) (enc_rec (R t (w32_bytes x))).
Proof. intros. apply wapp_tagged; [assumption|reflexivity|apply wbody_32]. Qed.
Lemma zlen_bool_bytes x : zlen (bool_bytes x) = 4.
Proof. destruct x; reflexivity. Qed.
Lemma wapp_bool t x : tag_ok t = true -> wapp (write_tagged_bool t x) (enc_rec (R t (bool_bytes x))).
Proof. intros. apply wapp_tagged; [assumption|rewrite zlen_bool_bytes; reflexivity|apply wbody_bool]. Qed.
Lemma size_ok_string x : str_ok x = true -> size_ok (zlen (string_bytes x)) = true.
Proof.
  intros H. unfold str_ok, fits in H. apply andb_true_iff in H. destruct H as [_ H].
  rewrite zlen_string_bytes. unfold size_ok, two32. pose proof (zlen_nonneg x). lia.
Qed.
Lemma size_ok_wstring x : wstr_ok x = true -> size_ok (zlen (wstring_bytes x)) = true.
Proof.
  intros H. unfold wstr_ok, fits in H. apply andb_true_iff in H. destruct H as [_ H].
  unfold wstring_bytes. rewrite lp_len. unfold size_ok, two32. pose proof (zlen_nonneg (encode_utf16le x)). lia.
Qed.
Lemma wapp_string t x : tag_ok t = true -> str_ok x = true ->
  wapp (write_tagged_string t x) (enc_rec (R t (string_bytes x))).
Proof. intros. apply wapp_tagged; [assumption|apply size_ok_string; assumption|apply wbody_string; assumption]. Qed.
Lemma wapp_wstring t x : tag_ok t = true -> wstr_ok x = true ->
  wapp (write_tagged_wide_string t x) (enc_rec (R t (wstring_bytes x))).
Proof. intros. apply wapp_tagged; [assumption|apply size_ok_wstring; assumption|apply wbody_wstring; assumption]. Qed.
Lemma wapp_v2 t x : tag_ok t = true -> wapp (write_tagged_with t (Vertex2D_write x)) (enc_rec (R t (v2_bytes x))).
Proof. intros. apply wapp_tagged; [assumption|reflexivity|apply wbody_seq; apply wbody_f32]. Qed.
Lemma wapp_v3 t x : tag_ok t = true -> wapp (write_tagged_with t (Vertex3D_write x)) (enc_rec (R t (v3_bytes x))).
Proof. intros. apply wapp_tagged; [assumption|reflexivity|repeat apply wbody_seq; apply wbody_f32]. Qed.
Lemma wapp_v3u t x : tag_ok t = true ->
  wapp (write_tagged_with t (Vertex3D_write_unpadded x)) (enc_rec (R t (v3u_bytes x))).
Proof. intros. apply wapp_tagged; [assumption|reflexivity|repeat apply wbody_seq; apply wbody_f32]. Qed.
Lemma wapp_v4 t x : tag_ok t = true -> wapp (write_tagged_with t (Vertex4D_write x)) (enc_rec (R t (v4_bytes x))).
Proof. intros. apply wapp_tagged; [assumption|reflexivity|repeat apply wbody_seq; apply wbody_f32]. Qed.
Lemma wapp_color t x : tag_ok t = true -> wapp (write_tagged_with t (Color_write x)) (enc_rec (R t (color_bytes x))).
Proof.
  intros. apply wapp_tagged; [assumption|reflexivity|].
  apply (wbody_seq _ _ [_] _ (wbody_u8 _)). apply (wbody_seq _ _ [_] _ (wbody_u8 _)).
  apply (wbody_seq _ _ [_] [_] (wbody_u8 _)). apply wbody_u8.
Qed.
Definition data_ok (d : bytes) : bool := fits (zlen d).
Lemma wapp_data t x : tag_ok t = true -> data_ok x = true -> wapp (write_tagged_data t x) (enc_rec (R t x)).
Proof.
  intros Ht Hx. apply wapp_tagged; [assumption| |apply wbody_data].
  unfold data_ok, fits in Hx. unfold size_ok, two32. pose proof (zlen_nonneg x). lia.
Qed.

(** quantised values *)
Definition dili_ok (x : f32) : bool :=
  match quantize_unsigned_8 x with Ok q => w32_eqb (dequantize_unsigned_8 q) x | _ => false end.
Definition dili_bytes (x : f32) : bytes :=
  match quantize_unsigned_8 x with Ok q => w32_bytes q | _ => [] end.
Lemma dili_inv x : dili_ok x = true -> exists q, quantize_unsigned_8 x = Ok q /\ dequantize_unsigned_8 q = x /\ dili_bytes x = w32_bytes q.
Proof.
  unfold dili_ok, dili_bytes. destruct (quantize_unsigned_8 x) as [q|f]; [|discriminate].
  intros H. exists q. apply w32_eqb_eq in H. auto.
Qed.
Lemma Gets_dili x : dili_ok x = true -> Gets get_dequantized8 (dili_bytes x) x.
Proof.
  intros H. destruct (dili_inv x H) as (q & E1 & E2 & E3). rewrite E3. rewrite <- E2.
  apply (Gets_map _ dequantize_unsigned_8), Gets_u32.
Qed.
Lemma wapp_dili t x : tag_ok t = true -> dili_ok x = true ->
  wapp (write_tagged_quantized8 t x) (enc_rec (R t (dili_bytes x))).
Proof.
  intros Ht H. destruct (dili_inv x H) as (q & E1 & E2 & E3). rewrite E3.
  intros w d Hw. unfold write_tagged_quantized8, wlift. rewrite E1. apply wapp_u32; assumption.
Qed.
Lemma size_ok_dili x : dili_ok x = true -> size_ok (zlen (dili_bytes x)) = true.
Proof. intros H. destruct (dili_inv x H) as (q & E1 & E2 & E3). rewrite E3. reflexivity. Qed.

(** ** Handlers *)
Section Arms.
Context {S : Type}.
(** The arm [a] turns [s] into [s'] reading [p]. *)
Definition ArmH (a : S -> rd_M S) (n : Z) (p : bytes) (s s' : S) : Prop :=
  forall pre rest t w c, rest <> [] ->
    a s (at_ pre (p ++ rest) n t w c) = Ok (s', at_ (pre ++ p) rest 0 t w c).

Lemma Handles_arm arms t a n p (s s' : S) :
  lookup t arms = Some a -> ArmH a n p s s' -> Handles (dispatch arms) t n p s s'.
Proof. intros L H pre rest w c Hr. unfold dispatch. rewrite L. apply H; exact Hr. Qed.

Lemma ArmH_get {A} (g : rd_M A) (k : S -> A -> S) p x s :
  Gets g p x -> ArmH (fun s => y <- g ;; rret (k s y)) (zlen p) p s (k s x).
Proof.
  intros H pre rest t w c _. unfold rbindM. rewrite H by lia. rewrite Z.sub_diag. reflexivity.
Qed.
Lemma ArmH_get0 {A} (g : rd_M A) (k : S -> A -> S) p x s :
  Gets0 g p x -> ArmH (fun s => y <- g ;; rret (k s y)) 0 p s (k s x).
Proof.
  intros H pre rest t w c _. unfold rbindM. rewrite H. reflexivity.
Qed.
Lemma ArmH_enum {A B} (g : rd_M A) (f : A -> res B) (k : S -> B -> S) p x s :
  Gets (z <- g ;; rlift (f z)) p x -> ArmH (fun s => z <- g ;; y <- rlift (f z) ;; rret (k s y)) (zlen p) p s (k s x).
Proof.
  intros H pre rest t w c Hr. specialize (H pre rest (zlen p) t w c (Z.le_refl _)).
  unfold rbindM in *. destruct (g _) as [[z r]|]; [|discriminate]. rewrite H, Z.sub_diag. reflexivity.
Qed.
Lemma ArmH_skip s : ArmH (fun s => rret s) 0 [] s s.
Proof. intros pre rest t w c _. unfold rret. rewrite app_nil_r. reflexivity. Qed.

(** [reader.get_record_data(false)] *)
Lemma ArmH_data (k : S -> bytes -> S) d s :
  ArmH (fun s => y <- get_record_data false ;; rret (k s y)) (zlen d) d s (k s d).
Proof.
  intros pre rest t w c Hr. unfold rbindM, get_record_data. cbn [negb andb r_data r_pos r_rem at_].
  pose proof (zlen_nonneg d) as Hd. pose proof (zlen_nonneg pre) as Hp.
  assert (Hz : 0 < zlen rest). { destruct rest; [congruence|]. rewrite zlen_cons. pose proof (zlen_nonneg rest). lia. }
  rewrite !zlen_app.
  replace (zlen pre + (zlen d + zlen rest) <=? zlen pre + zlen d) with false by lia.
  replace (zlen pre + zlen d - zlen pre) with (zlen d) by lia.
  rewrite slice_mid by reflexivity. unfold rret, at_, set_rem, set_pos. cbn [r_data r_pos r_rem r_tag r_warn r_checked].
  rewrite zlen_app, <- app_assoc. reflexivity.
Qed.

Lemma rec_ok_of t n : tag_ok t && negb (t =? "ENDB")%string = true -> size_ok n = true -> rec_ok t n = true.
Proof. unfold rec_ok. intros H1 H2. rewrite H2. destruct (tag_ok t); [exact H1|discriminate]. Qed.

(** Building [Steps] record by record. *)
Lemma S_rec arms t a p (s s' : S) rs s'' :
  tag_ok t && negb (t =? "ENDB")%string = true -> size_ok (zlen p) = true -> lookup t arms = Some a ->
  ArmH a (zlen p) p s s' -> Steps (dispatch arms) s' rs s'' -> Steps (dispatch arms) s (R t p :: rs) s''.
Proof.
  intros Ht Hs L HA HS. apply Steps_one_cons with (s' := s'); [apply rec_ok_of; assumption| |exact HS].
  eapply Handles_arm; eassumption.
Qed.
Lemma S_rec0 arms t a p (s s' : S) rs s'' :
  tag_ok t && negb (t =? "ENDB")%string = true -> lookup t arms = Some a ->
  ArmH a 0 p s s' -> Steps (dispatch arms) s' rs s'' -> Steps (dispatch arms) s (R0 t p :: rs) s''.
Proof.
  intros Ht L HA HS. apply Steps_one0_cons with (s' := s'); [apply rec_ok_of; [assumption|reflexivity]| |exact HS].
  eapply Handles_arm; eassumption.
Qed.
End Arms.

(** Reading back the records of a value. *)
Lemma read_arms_steps {S} (arms : list (arm S)) dflt rs s pre tail t0 w c :
  Steps (dispatch arms) dflt rs s -> (w = true -> tail = []) ->
  read_arms arms dflt (at_ pre (enc (rs ++ [endb]) ++ tail) 0 t0 w c)
    = Ok (s, at_ (pre ++ enc (rs ++ [endb])) tail 0 "ENDB" w c).
Proof. apply run_loop_steps. Qed.

Lemma with_child_at {A} (m : rd_M A) b x pre rest t w c :
  (forall tail, m (at_ [] (b ++ tail) 0 "" false c) = Ok (x, at_ b tail 0 "ENDB" false c)) ->
  with_child m (at_ pre (b ++ rest) 0 t w c) = Ok (x, at_ (pre ++ b) rest 0 t w c).
Proof.
  intros H. unfold with_child, child_reader, rbindM, get_remaining.
  cbn [r_data r_pos at_]. rewrite zlen_app.
  replace (zlen pre + zlen (b ++ rest) - zlen pre) with (zlen (b ++ rest)) by lia.
  rewrite <- (app_nil_r (b ++ rest)) at 1. rewrite slice_mid by reflexivity.
  specialize (H rest). unfold at_ in H at 1. cbn [app] in H. rewrite zlen_nil in H.
  cbn [r_checked at_]. rewrite H. unfold skip_end_tag, rret, set_rem, set_pos, at_.
  cbn [r_data r_pos r_rem r_tag r_warn r_checked]. rewrite zlen_app, <- app_assoc. reflexivity.
Qed.

(** ** Round trip of a record type *)
(** What the writer produces and what the reader makes of it. *)
Definition reads_as {A} (m : rd_M A) (b : bytes) (x : A) : Prop :=
  forall checked, exists r, m (rd_new checked b) = Ok (x, r).

Lemma rd_new_at checked b : rd_new checked b = at_ [] b 0 "" true checked.
Proof. reflexivity. Qed.

Lemma read_arms_reads {S} (arms : list (arm S)) dflt rs s :
  Steps (dispatch arms) dflt rs s -> reads_as (read_arms arms dflt) (enc (rs ++ [endb])) s.
Proof.
  intros H checked. rewrite rd_new_at. rewrite <- (app_nil_r (enc (rs ++ [endb]))).
  eexists. apply read_arms_steps; [exact H|reflexivity].
Qed.

(** ** Optional and repeated fields *)
Definition opt_ok {A} (f : A -> bool) (o : option A) : bool := match o with Some x => f x | None => true end.
Definition orec {A} (o : option A) (f : A -> rec) : list rec :=
  match o with Some x => [f x] | None => [] end.

Lemma S_opt {S A} (setf : option A -> S -> S) (getf : S -> option A) (arms : list (arm S)) (o : option A) t a (p : A -> bytes) (s : S) rs s'' :
  (forall s, setf (getf s) s = s) -> getf s = None ->
  tag_ok t && negb (t =? "ENDB")%string = true -> (forall x, o = Some x -> size_ok (zlen (p x)) = true) ->
  lookup t arms = Some a ->
  (forall x, o = Some x -> ArmH a (zlen (p x)) (p x) s (setf (Some x) s)) ->
  Steps (dispatch arms) (setf o s) rs s'' ->
  Steps (dispatch arms) s (orec o (fun x => R t (p x)) ++ rs) s''.
Proof.
  intros Heta Hnone Ht Hp L HA HS. unfold orec.
  apply (Steps_opt _ o (fun x => [R t (p x)]) (fun o => setf o s)); [rewrite <- Hnone; apply Heta| |exact HS].
  intros x ->. eapply S_rec; [exact Ht|apply Hp; reflexivity|exact L|apply HA; reflexivity|constructor].
Qed.

Lemma wapp_orec {A} (o : option A) (f : A -> wr_M) (g : A -> rec) :
  (forall x, o = Some x -> wapp (f x) (enc_rec (g x))) -> wapp (wopt o f) (enc (orec o g)).
Proof.
  intros H. unfold orec. apply (wapp_opt o f (fun x => [g x])). intros x E.
  cbn [enc flat_map]. rewrite app_nil_r. apply H, E.
Qed.

(** ** Timer data and shared attributes *)
Definition timer_recs (t : TimerData) : list rec :=
  [R "TMON" (bool_bytes (td_is_enabled t)); R "TMIN" (w32_bytes (td_interval t))].
Lemma wapp_timer t : wapp (TimerData_write t) (enc (timer_recs t)).
Proof.
  unfold TimerData_write, timer_recs. apply wapp_cons; [apply wapp_bool; reflexivity|].
  rewrite enc_cons, app_nil_r. apply wapp_i32; reflexivity.
Qed.

Definition shared_recs {X} (d : HasShared X) (v : X) : list rec :=
  R "LOCK" (bool_bytes (sh_is_locked d v)) ::
  orec (sh_editor_layer d v) (fun x => R "LAYR" (w32_bytes x)) ++
  orec (sh_editor_layer_name d v) (fun x => R "LANR" (string_bytes x)) ++
  orec (sh_part_group_name d v) (fun x => R "GRUP" (string_bytes x)) ++
  orec (sh_editor_layer_visibility d v) (fun x => R "LVIS" (bool_bytes x)).
Definition shared_ok {X} (d : HasShared X) (v : X) : bool :=
  opt_ok str_ok (sh_editor_layer_name d v) && opt_ok str_ok (sh_part_group_name d v).

Lemma opt_ok_some {A} (f : A -> bool) o x : opt_ok f o = true -> o = Some x -> f x = true.
Proof. intros H ->. exact H. Qed.

Lemma wapp_shared {X} (d : HasShared X) v : shared_ok d v = true ->
  wapp (write_shared_attributes d v) (enc (shared_recs d v)).
Proof.
  intros H. unfold shared_ok in H. apply andb_true_iff in H. destruct H as [H1 H2].
  unfold write_shared_attributes, shared_recs.
  apply wapp_cons; [apply wapp_bool; reflexivity|].
  apply wapp_app; [apply wapp_orec; intros; apply wapp_u32; reflexivity|].
  apply wapp_app; [apply wapp_orec; intros; apply wapp_string; [reflexivity|eapply opt_ok_some; [|eassumption]; assumption]|].
  apply wapp_app; [apply wapp_orec; intros; apply wapp_string; [reflexivity|eapply opt_ok_some; [|eassumption]; assumption]|].
  apply wapp_orec; intros; apply wapp_bool; reflexivity.
Qed.

(** The state after reading the shared attributes of [v]. *)
Definition set_shared {X} (d : HasShared X) (v s : X) : X :=
  sh_set_editor_layer_visibility d (sh_editor_layer_visibility d v)
    (sh_set_part_group_name d (sh_part_group_name d v)
      (sh_set_editor_layer_name d (sh_editor_layer_name d v)
        (sh_set_editor_layer d (sh_editor_layer d v)
          (sh_set_is_locked d (sh_is_locked d v) s)))).

Lemma lookup_app {A} t (a b : list (string * A)) :
  lookup t (a ++ b) = match lookup t a with Some x => Some x | None => lookup t b end.
Proof. induction a as [|[k x] a IH]; cbn [app lookup]; [reflexivity|]. destruct (t =? k)%string; auto. Qed.

(** ** Drag points *)
Definition DragPoint_recs (v : DragPoint) : list rec :=
  R "VCEN" (w32_bytes (dp_x v) ++ w32_bytes (dp_y v)) ::
  R "POSZ" (w32_bytes (dp_z v)) ::
  R "SMTH" (bool_bytes (dp_smooth v)) ::
  orec (dp_is_slingshot v) (fun x => R "SLNG" (bool_bytes x)) ++
  R "ATEX" (bool_bytes (dp_has_auto_texture v)) ::
  R "TEXC" (w32_bytes (dp_tex_coord v)) ::
  R "LOCK" (bool_bytes (dp_is_locked v)) ::
  orec (dp_editor_layer v) (fun x => R "LAYR" (w32_bytes x)) ++
  orec (dp_editor_layer_name v) (fun x => R "LANR" (string_bytes x)) ++
  orec (dp_editor_layer_visibility v) (fun x => R "LVIS" (bool_bytes x)).
Definition DragPoint_ok (v : DragPoint) : bool := opt_ok str_ok (dp_editor_layer_name v).

(** Tactics used for all record types. *)
Lemma size_ok_bool x : size_ok (zlen (bool_bytes x)) = true.
Proof. rewrite zlen_bool_bytes. reflexivity. Qed.

(** [assumption], up to syntactic equality only. *)
Ltac asm := match goal with H : ?P |- ?P => exact H end.
(** Proves [Gets g p x] for the atomic getters. *)
Ltac gets :=
  lazymatch goal with
  | |- Gets get_f32 _ _ => exact (Gets_f32 _)
  | |- Gets get_u32 _ _ => exact (Gets_u32 _)
  | |- Gets get_i32 _ _ => exact (Gets_i32 _)
  | |- Gets get_32 _ _ => exact (Gets_32 _)
  | |- Gets get_bool _ _ => exact (Gets_bool _)
  | |- Gets Vertex2D_read _ _ => exact (Gets_v2 _)
  | |- Gets Vertex3D_read _ _ => exact (Gets_v3 _)
  | |- Gets Vertex3D_read_unpadded _ _ => exact (Gets_v3u _)
  | |- Gets Vertex4D_read _ _ => exact (Gets_v4 _)
  | |- Gets Color_read _ _ => exact (Gets_color _)
  | |- Gets get_string _ _ => refine (Gets_string _ _); asm
  | |- Gets get_wide_string _ _ => refine (Gets_wstring _ _); asm
  | |- Gets get_dequantized8 _ _ => refine (Gets_dili _ _); asm
  end.
Ltac armh :=
  lazymatch goal with
  | |- ArmH _ _ [] _ _ => apply ArmH_skip
  | _ => first [ eapply (ArmH_get _ (fun s y => _)); gets
               | eapply (ArmH_data (fun s y => _)) ]
  end.
Ltac sizeok :=
  lazymatch goal with
  | |- size_ok (zlen (bool_bytes _)) = true => apply size_ok_bool
  | |- size_ok (zlen (string_bytes _)) = true => apply size_ok_string; asm
  | |- size_ok (zlen (wstring_bytes _)) = true => apply size_ok_wstring; asm
  | |- size_ok (zlen (dili_bytes _)) = true => apply size_ok_dili; asm
  | _ => reflexivity
  end.

(** One mandatory record. *)
Ltac srec := eapply S_rec; [reflexivity | sizeok | reflexivity | armh | cbv beta].
(** One optional record, stored with [setf]. *)
Ltac okhyp := try (match goal with E : ?o = Some ?x, H : opt_ok ?f ?o = true |- _ =>
    assert (f x = true) by (exact (opt_ok_some f o x H E)) end).
Ltac sopt setf getf :=
  eapply (S_opt setf getf); [intros []; reflexivity | reflexivity | reflexivity | intros; okhyp; sizeok | reflexivity | intros; okhyp; armh | cbv beta].

Lemma DragPoint_steps v : DragPoint_ok v = true ->
  Steps (dispatch DragPoint_arms) DragPoint_default (DragPoint_recs v ++ []) v.
Proof.
  intros H. unfold DragPoint_ok in H.
  assert (E : forall s, s = v -> Steps (dispatch DragPoint_arms) DragPoint_default (DragPoint_recs v ++ []) s ->
                          Steps (dispatch DragPoint_arms) DragPoint_default (DragPoint_recs v ++ []) v)
    by (intros s <-; auto).
  eapply E; cycle 1; clear E.
  - unfold DragPoint_recs. repeat (rewrite <- app_assoc || rewrite <- app_comm_cons).
    eapply S_rec; [reflexivity|reflexivity|reflexivity| |].
    { intros pre rest t w c _. unfold rbindM. rewrite <- app_assoc.
      rewrite Gets_f32 by (rewrite zlen_app, !zlen_w32_bytes; lia).
      rewrite Gets_f32 by (rewrite zlen_app, !zlen_w32_bytes; lia). 
      rewrite zlen_app, !zlen_w32_bytes. rewrite <- app_assoc. reflexivity. }
    srec. srec. sopt set_dp_is_slingshot dp_is_slingshot. srec. srec. srec.
    sopt set_dp_editor_layer dp_editor_layer. sopt set_dp_editor_layer_name dp_editor_layer_name. sopt set_dp_editor_layer_visibility dp_editor_layer_visibility. 
    constructor.
  - destruct v; reflexivity.
Qed.

Ltac wone :=
  lazymatch goal with
  | |- wapp (write_tagged_f32 _ _) _ => apply wapp_f32; reflexivity
  | |- wapp (write_tagged_u32 _ _) _ => apply wapp_u32; reflexivity
  | |- wapp (write_tagged_i32 _ _) _ => apply wapp_i32; reflexivity
  | |- wapp (write_tagged_bool _ _) _ => apply wapp_bool; reflexivity
  | |- wapp (write_tagged_string _ _) _ => apply wapp_string; [reflexivity|asm]
  | |- wapp (write_tagged_wide_string _ _) _ => apply wapp_wstring; [reflexivity|asm]
  | |- wapp (write_tagged_quantized8 _ _) _ => apply wapp_dili; [reflexivity|asm]
  | |- wapp (write_tagged_data _ _) _ => apply wapp_data; [reflexivity|asm]
  | |- wapp (write_marker_tag _) _ => apply wapp_marker; reflexivity
  | |- wapp (write_tagged_with _ (Vertex2D_write _)) _ => apply wapp_v2; reflexivity
  | |- wapp (write_tagged_with _ (Vertex3D_write _)) _ => apply wapp_v3; reflexivity
  | |- wapp (write_tagged_with _ (Vertex3D_write_unpadded _)) _ => apply wapp_v3u; reflexivity
  | |- wapp (write_tagged_with _ (Vertex4D_write _)) _ => apply wapp_v4; reflexivity
  | |- wapp (write_tagged_with _ (Color_write _)) _ => apply wapp_color; reflexivity
  | |- wapp (TimerData_write_tmon _) _ => apply wapp_bool; reflexivity
  | |- wapp (TimerData_write_tmin _) _ => apply wapp_i32; reflexivity
  end.
Ltac wrec := apply wapp_cons; [wone|].
Ltac woptrec := apply wapp_app; [apply wapp_orec; intros; okhyp; wone|].
Ltac recs_norm := repeat (rewrite <- app_assoc || rewrite <- app_comm_cons).

Lemma wapp_ext (m m' : wr_M) b : (forall w, m w = m' w) -> wapp m' b -> wapp m b.
Proof. intros E H w d Hw. rewrite E. apply H, Hw. Qed.

Lemma DragPoint_wapp v : DragPoint_ok v = true ->
  wapp (DragPoint_write v) (enc (DragPoint_recs v ++ [endb])).
Proof.
  intros H. unfold DragPoint_ok in H. unfold DragPoint_write, DragPoint_recs. recs_norm.
  apply wapp_cons.
  { apply (wapp_ext _ (write_tagged_with "VCEN" (write_f32 (dp_x v) >>> write_f32 (dp_y v)))).
    - intros w. unfold write_tagged_with, wseq. destruct (new_tag "VCEN" w) as [w'|]; reflexivity.
    - apply wapp_tagged; [reflexivity|reflexivity|apply wbody_seq; apply wbody_f32]. }
  wrec. wrec. woptrec. wrec. wrec. wrec. woptrec. woptrec. woptrec. apply wapp_close.
Qed.

Definition DragPoint_bytes (v : DragPoint) : bytes := enc (DragPoint_recs v ++ [endb]).

Lemma DragPoint_at v pre rest t w c : DragPoint_ok v = true ->
  DragPoint_read (at_ pre (DragPoint_bytes v ++ rest) 0 t w c) = Ok (v, at_ (pre ++ DragPoint_bytes v) rest 0 t w c).
Proof.
  intros H. unfold DragPoint_read. apply with_child_at. intros tail.
  unfold DragPoint_bytes. rewrite <- (app_nil_r (DragPoint_recs v)).
  rewrite (read_arms_steps DragPoint_arms DragPoint_default (DragPoint_recs v ++ []) v [] tail "" false c);
    [reflexivity|apply DragPoint_steps; exact H|discriminate].
Qed.

(** [for point in &self.drag_points { writer.write_tagged("DPNT", point) }] *)
Lemma wapp_points t (l : list DragPoint) : tag_ok t = true -> forallb DragPoint_ok l = true ->
  wapp (wfor l (fun x => write_tagged_with t (DragPoint_write x))) (enc (map (fun x => R0 t (DragPoint_bytes x)) l)).
Proof.
  intros Ht H. apply wapp_for. intros x Hx. apply wapp_nested; [exact Ht|].
  apply DragPoint_wapp. rewrite forallb_forall in H. apply H, Hx.
Qed.
(** The arm that pushes a point. *)
Lemma S_points {S} (setl : list DragPoint -> S -> S) (getl : S -> list DragPoint) arms t a
      (l : list DragPoint) (s : S) rs s'' :
  (forall s, setl (getl s) s = s) -> getl s = [] ->
  (forall d x s, setl (getl (setl d s) ++ [x]) (setl d s) = setl (d ++ [x]) s) ->
  forallb DragPoint_ok l = true ->
  tag_ok t && negb (t =? "ENDB")%string = true -> lookup t arms = Some a ->
  (forall s x, DragPoint_ok x = true -> ArmH a 0 (DragPoint_bytes x) s (setl (getl s ++ [x]) s)) ->
  Steps (dispatch arms) (setl l s) rs s'' ->
  Steps (dispatch arms) s (map (fun x => R0 t (DragPoint_bytes x)) l ++ rs) s''.
Proof.
  intros Heta Hnil Hpush Hok Ht L HA HS. rewrite forallb_forall in Hok.
  apply (Steps_list _ l (fun x => R0 t (DragPoint_bytes x)) (fun l => setl l s)); [rewrite <- Hnil; apply Heta| |exact HS].
  intros d x Hx. rewrite <- Hpush. eapply S_rec0; [exact Ht|exact L|apply HA, Hok, Hx|constructor].
Qed.
Lemma ArmH_point {S} (k : S -> DragPoint -> S) x s : DragPoint_ok x = true ->
  ArmH (fun s => y <- DragPoint_read ;; rret (k s y)) 0 (DragPoint_bytes x) s (k s x).
Proof.
  intros H pre rest t w c _. unfold rbindM. rewrite DragPoint_at by exact H. reflexivity.
Qed.

(** ** Fonts of decals and text boxes *)
Definition FontDesc_ok (f : FontDesc) : bool := latin1_ok (fd_name f) && (zlen (fd_name f) <? 256).
Definition FontDesc_bytes (f : FontDesc) : bytes :=
  [x01] ++ w16_bytes (fd_charset f) ++ [styles_to_flags (fd_style f)] ++ w16_bytes (fd_weight f) ++
  w32_bytes (fd_size f) ++ [Z_to_byte (zlen (fd_name f))] ++ latin1_bytes (fd_name f).

Lemma flags_styles s : flags_to_styles (styles_to_flags s) = s.
Proof. destruct s as [[] [] [] [] []]; reflexivity. Qed.

Lemma wbody_font f : FontDesc_ok f = true -> wbody (FontDesc_write f) (FontDesc_bytes f).
Proof.
  intros H. unfold FontDesc_ok in H. apply andb_true_iff in H. destruct H as [H1 H2].
  unfold FontDesc_write, FontDesc_bytes.
  apply (wbody_seq _ _ [_] _ (wbody_u8 _)). apply wbody_seq; [apply wbody_u16|].
  apply (wbody_seq _ _ [_] _ (wbody_u8 _)). apply wbody_seq; [apply wbody_u16|].
  apply wbody_seq; [apply wbody_u32|].
  intros w. unfold write_short_string, wlift. rewrite encode_latin1_bytes by exact H1.
  rewrite zlen_latin1_bytes, H2. apply (wbody_seq _ _ [_] _ (wbody_u8 _) (wbody_data _)).
Qed.

Lemma Gets0_bind {A B} (g : rd_M A) (k : A -> rd_M B) p q x y :
  Gets0 g p x -> Gets0 (k x) q y -> Gets0 (rbindM g k) (p ++ q) y.
Proof.
  intros Hg Hk pre rest n t w c. unfold rbindM. rewrite <- app_assoc. rewrite Hg, Hk, <- app_assoc. reflexivity.
Qed.
Lemma Gets0_map {A B} (g : rd_M A) (k : A -> B) p x :
  Gets0 g p x -> Gets0 (y <- g ;; rret (k y)) p (k x).
Proof. intros H pre rest n t w c. unfold rbindM. rewrite H. reflexivity. Qed.

Lemma Gets0_font f : FontDesc_ok f = true -> Gets0 FontDesc_read (FontDesc_bytes f) f.
Proof.
  intros H. unfold FontDesc_ok in H. apply andb_true_iff in H. destruct H as [H1 H2].
  unfold FontDesc_read, FontDesc_bytes.
  eapply Gets0_bind; [intros pre rest n t w c; apply get_u8_nru_at|]. cbn beta.
  change (Byte.eqb x01 x01) with true. cbv iota.
  assert (E : forall B (k : unit -> rd_M B) p y, Gets0 (k tt) p y -> Gets0 (rbindM (rret tt) k) p y)
    by (intros B k p y Hk pre rest n t w c; unfold rbindM, rret; apply Hk).
  apply E; clear E.
  eapply Gets0_bind; [intros pre rest n t w c; apply get_u16_nru_at|]. cbn beta.
  eapply Gets0_bind; [intros pre rest n t w c; apply get_u8_nru_at|]. cbn beta.
  eapply Gets0_bind; [intros pre rest n t w c; apply get_u16_nru_at|]. cbn beta.
  eapply Gets0_bind; [intros pre rest n t w c; apply get_u32_nru_at|]. cbn beta.
  eapply Gets0_bind; [intros pre rest n t w c; apply get_u8_nru_at|]. cbn beta.
  rewrite flags_styles. rewrite Z_to_byte_small by (pose proof (zlen_nonneg (fd_name f)); lia).
  destruct f as [cs st we sz nm]; cbn [fd_charset fd_style fd_weight fd_size fd_name] in *.
  apply (Gets0_map _ (fun nm => mkFontDesc cs st we sz nm)).
  intros pre rest n t w c. unfold get_str_no_remaining_update.
  erewrite bindM_ok by (apply scan_at; [rewrite zlen_latin1_bytes; reflexivity|apply latin1_bytes_no_nul; exact H1]).
  unfold rret. rewrite decode_latin1_bytes by exact H1. reflexivity.
Qed.
Lemma wapp_font t f : tag_ok t = true -> FontDesc_ok f = true ->
  wapp (write_tagged_without_size t (FontDesc_write f)) (enc_rec (R0 t (FontDesc_bytes f))).
Proof. intros. apply wapp_tagged0; [assumption|apply wbody_font; assumption]. Qed.

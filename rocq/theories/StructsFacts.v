(** Facts about the structures of Structs.v. *)
From Verif Require Import Base Text Biff Quantize Common Enums ItemBase StructMaterial StructRenderProbe Structs.
From Verif Require Import BaseFacts TextFacts BiffFacts CommonFacts TermFacts QuantizeFacts EnumsFacts ItemBaseFacts.
From Verif Require Import StructBaseFacts StructMaterialFacts StructRenderProbeFacts QuantizeMono.
From Coq Require Import SpecFloat.

Lemma run_reader_reads {A} (m : rd_M A) b x : reads_as m b x -> forall c, run_reader m c b = Ok x.
Proof. intros H c. destruct (H c) as [r E]. unfold run_reader. rewrite E. reflexivity. Qed.
Lemma run_reader_term {A} (m : rd_M A) : Term m -> forall c b, run_reader m c b <> OutOfFuel.
Proof.
  intros H c b E. unfold run_reader in E.
  assert (HS : Safe 0 (rd_new c b)) by (split; cbn; lia).
  specialize (H 0 _ (Z.le_refl 0) HS). destruct (m _) as [[x r]|f]; [discriminate|]. injection E as ->. apply H; reflexivity.
Qed.
Lemma run_reader_yields {A} (m : rd_M A) P : Yields m P -> forall c b x, fits (zlen b) = true -> run_reader m c b = Ok x -> P x.
Proof.
  intros H c b x Hf E. unfold run_reader in E. destruct (m _) as [[y r]|] eqn:Em; [|discriminate]. injection E as <-.
  exact (proj1 (H (rd_new c b) _ _ Hf Em)).
Qed.

(** ** The other fallback *)
Lemma Steps_known {S} (arms : list (arm S)) s rs s' : Steps (dispatch arms) s rs s' ->
  forallb (fun r => tag_known arms (rec_tag r)) rs = true -> Steps (dispatch_data arms) s rs s'.
Proof.
  induction 1 as [s|t n p s s1 rs s2 Hr Hh HS IH]; intros Ht; [constructor|].
  cbn [forallb rec_tag] in Ht. apply andb_true_iff in Ht. destruct Ht as [Ht Hts].
  econstructor; [exact Hr| |apply IH, Hts]. destruct (tag_known_lookup _ _ Ht) as [a L].
  intros pre rest w c Hrest. unfold dispatch_data. rewrite L. specialize (Hh pre rest w c Hrest).
  unfold dispatch in Hh. rewrite L in Hh. exact Hh.
Qed.
Lemma dispatch_data_unknown {S} (arms : list (arm S)) t p (s : S) : lookup t arms = None ->
  Handles (dispatch_data arms) t (zlen p) p s s.
Proof.
  intros L pre rest w c Hr. unfold dispatch_data. rewrite L.
  exact (ArmH_data (fun s _ => s) p s pre rest t w c Hr).
Qed.
Lemma Term_dispatch_data {S} (arms : list (arm S)) : Forall ArmTerm arms -> forall t s, Term (dispatch_data arms t s).
Proof.
  intros H t s. unfold dispatch_data. destruct (lookup t arms) as [a|] eqn:E.
  - apply lookup_in in E. rewrite Forall_forall in H. apply (H _ E).
  - apply Term_bind; [apply Term_get_record_data|intros; apply Term_ret].
Qed.
Lemma Yields_dispatch_data {S} (arms : list (arm S)) P : Forall (ArmYields P) arms ->
  forall t s, P s -> Yields (dispatch_data arms t s) P.
Proof.
  intros H t s Hs. unfold dispatch_data. destruct (lookup t arms) as [a|] eqn:E.
  - apply lookup_in in E. rewrite Forall_forall in H. apply (H _ E), Hs.
  - eapply Yields_bind; [apply Yields_record_data|intros; apply Yields_ret, Hs].
Qed.

(** ** Collections *)
Definition Collection_recs (v : Collection) : list rec :=
  R "NAME" (wstring_bytes (co_name v)) ::
  map (fun x => R "ITEM" (wstring_bytes x)) (co_items v) ++
  R "EVNT" (bool_bytes (co_fire_events v)) ::
  R "SSNG" (bool_bytes (co_stop_single_events v)) ::
  R "GREL" (bool_bytes (co_group_elements v)) :: [].
Definition Collection_ok (v : Collection) : bool := wstr_ok (co_name v) && forallb wstr_ok (co_items v).
Lemma Collection_steps v : Collection_ok v = true -> Steps (dispatch Collection_arms) Collection_init (Collection_recs v) v.
Proof.
  intros H. unfold Collection_ok in H. split_ok H. eapply Steps_eq.
  - unfold Collection_recs. srec.
    apply (Steps_list _ (co_items v) _ (fun l => set_co_items l (set_co_name (co_name v) Collection_init))); [reflexivity| |].
    + intros done x Hx. rewrite forallb_forall in H0. specialize (H0 x Hx). srec. constructor.
    + srec. srec. srec. constructor.
  - destruct v. reflexivity.
Qed.
Lemma Collection_wapp v : Collection_ok v = true -> wapp (Collection_write_m v) (enc (Collection_recs v ++ [endb])).
Proof.
  intros H. unfold Collection_ok in H. split_ok H. unfold Collection_write_m, Collection_recs. recs_norm.
  wrec. apply wapp_app.
  { apply wapp_for. intros x Hx. rewrite forallb_forall in H0. specialize (H0 x Hx). wone. }
  wrec. wrec. wrec. apply wapp_close.
Qed.
Lemma Collection_roundtrip v : Collection_ok v = true ->
  exists b, Collection_write v = Ok b /\ forall c, Collection_read c b = Ok v.
Proof.
  intros H. destruct (item_roundtrip Collection_write_m Collection_arms Collection_init Collection_recs v
    (Collection_wapp v H) ltac:(unfold Collection_write_m; closes) (Collection_steps v H)) as (b & E & Hr).
  exists b. split; [exact E|apply run_reader_reads, Hr].
Qed.
Lemma Collection_term : Term Collection_loop.
Proof. apply Term_read_arms. unfold Collection_arms. item_term. Qed.
Lemma Collection_yields : Yields Collection_loop (fun v => Collection_ok v = true).
Proof. apply Yields_read_arms; [|reflexivity]. unfold Collection_arms. item_yields Collection_ok. Qed.

(** ** Custom info tags *)
Definition CustomInfoTags_recs (v : list rstring) : list rec := map (fun x => R "CUST" (string_bytes x)) v.
Lemma CustomInfoTags_steps v : forallb str_ok v = true -> Steps (dispatch_data CustomInfoTags_arms) [] (CustomInfoTags_recs v) v.
Proof.
  intros H. apply Steps_known.
  2:{ unfold CustomInfoTags_recs. clear H. induction v; [reflexivity|exact IHv]. }
  unfold CustomInfoTags_recs. rewrite <- (app_nil_r (map _ _)).
  apply (Steps_list _ v _ (fun l => l)); [reflexivity| |constructor].
  intros done x Hx. rewrite forallb_forall in H. specialize (H x Hx). srec. constructor.
Qed.
Lemma CustomInfoTags_wapp v : forallb str_ok v = true -> wapp (CustomInfoTags_write_m v) (enc (CustomInfoTags_recs v ++ [endb])).
Proof.
  intros H. unfold CustomInfoTags_write_m, CustomInfoTags_recs. apply wapp_app; [|apply wapp_close].
  apply wapp_for. intros x Hx. rewrite forallb_forall in H. specialize (H x Hx). wone.
Qed.
Lemma loop_reads {S} (h : string -> S -> rd_M S) d rs s : Steps h d rs s -> reads_as (run_loop h d) (enc (rs ++ [endb])) s.
Proof.
  intros H c. rewrite rd_new_at. rewrite <- (app_nil_r (enc (rs ++ [endb]))).
  eexists. apply run_loop_steps; [exact H|reflexivity].
Qed.
Lemma CustomInfoTags_roundtrip v : forallb str_ok v = true ->
  exists b, CustomInfoTags_write v = Ok b /\ forall c, CustomInfoTags_read c b = Ok v.
Proof.
  intros H. exists (enc (CustomInfoTags_recs v ++ [endb])). split.
  - apply run_wapp; [apply CustomInfoTags_wapp, H|unfold CustomInfoTags_write_m; closes].
  - apply run_reader_reads, loop_reads, CustomInfoTags_steps, H.
Qed.
Lemma CustomInfoTags_term : Term CustomInfoTags_loop.
Proof. apply Term_run_loop, Term_dispatch_data. unfold CustomInfoTags_arms. item_term. Qed.
Lemma CustomInfoTags_yields : Yields CustomInfoTags_loop (fun v => forallb str_ok v = true).
Proof.
  apply Yields_run_loop; [|reflexivity]. apply Yields_dispatch_data. unfold CustomInfoTags_arms.
  apply Forall_cons; [|apply Forall_nil]. intros s Hs. cbn [snd]. eapply Yields_bind; [apply Yields_string|]. intros x Hx. apply Yields_ret.
  apply forallb_snoc; assumption.
Qed.

(** ** Fonts *)
Definition FontData_ok (v : FontData) : bool := str_ok (fo_name v) && str_ok (fo_path v) && data_ok (fo_data v).
Definition FontData_recs (v : FontData) : list rec :=
  R "NAME" (string_bytes (fo_name v)) :: R "PATH" (string_bytes (fo_path v)) ::
  R "SIZE" (w32_bytes (Z_to_w32 (zlen (fo_data v)))) :: R "DATA" (fo_data v) :: [].
Lemma get_data_at pre x rest n t w c k : k = zlen x ->
  get_data k (at_ pre (x ++ rest) n t w c) = Ok (x, at_ (pre ++ x) rest 0 t w c).
Proof. intros ->. unfold get_data, rbindM. rewrite take_at by reflexivity. reflexivity. Qed.
Lemma FontData_steps v : FontData_ok v = true ->
  Steps (dispatch FontData_arms) (mkFontState (mkFontData [] [] []) None) (FontData_recs v)
    (mkFontState v (Some (Z_to_w32 (zlen (fo_data v))))).
Proof.
  intros H. unfold FontData_ok in H. split_ok H. unfold FontData_recs. srec. srec. srec.
  cbn [fst_font fst_size fo_name fo_path fo_data].
  eapply S_rec; [reflexivity|apply size_ok_data; assumption|reflexivity| |].
  - intros pre rest t w c Hr. cbn [fst_font fst_size fo_name fo_path fo_data].
    unfold rbindM. rewrite get_data_at; [unfold rret; reflexivity|].
    unfold data_ok, fits in H0. pose proof (zlen_nonneg (fo_data v)). rewrite w32_to_Z_small; lia.
  - destruct v. constructor.
Qed.
Lemma FontData_wapp v : FontData_ok v = true -> wapp (FontData_write_m v) (enc (FontData_recs v ++ [endb])).
Proof.
  intros H. unfold FontData_ok in H. split_ok H. unfold FontData_write_m, FontData_recs. recs_norm.
  wrec. wrec. unfold wlift, try_u32, two32.
  assert (Hd : zlen (fo_data v) <? 4294967296 = true) by (unfold data_ok, fits in H0; lia). rewrite Hd.
  apply (wapp_cons (write_tagged_u32 "SIZE" (Z_to_w32 (zlen (fo_data v))))); [wone|]. wrec. apply wapp_close.
Qed.
Lemma FontData_roundtrip v : FontData_ok v = true ->
  exists b, FontData_write v = Ok b /\ forall c, FontData_read c b = Ok v.
Proof.
  intros H. exists (enc (FontData_recs v ++ [endb])). split.
  - apply run_wapp; [apply FontData_wapp, H|unfold FontData_write_m; closes].
  - intros c. unfold FontData_read. rewrite (run_reader_reads FontData_loop _ _ (read_arms_reads _ _ _ _ (FontData_steps v H))).
    reflexivity.
Qed.
Lemma FontData_term : Term FontData_loop.
Proof.
  apply Term_read_arms. unfold FontData_arms. repeat (apply Forall_cons; [intro s; cbn [snd]|]); [| | | |apply Forall_nil].
  - tm. - tm. - tm.
  - destruct (fst_size s); [|apply Term_panic]. apply Term_bind; [apply Term_get_data, w32_to_Z_nonneg|intros; apply Term_ret].
Qed.
Lemma Yields_get_data n : Yields (get_data n) (fun d => data_ok d = true).
Proof.
  intros r x r' Hf E. unfold get_data in E. apply bindM_inv in E. destruct E as (b & r1 & E1 & E2).
  destruct (take_yields n r b r1 Hf E1) as [Hb Hd]. injection E2 as <- <-. split; [exact Hb|exact Hd].
Qed.
Lemma FontData_yields : Yields FontData_loop (fun s => FontData_ok (fst_font s) = true).
Proof.
  apply Yields_read_arms; [|reflexivity]. unfold FontData_arms, FontData_ok.
  repeat (apply Forall_cons; [intros s Hs; cbn [snd]; apply andb_true_iff in Hs; destruct Hs as [Hs Hd]; apply andb_true_iff in Hs; destruct Hs as [Hn Hp]|]); [| | | |apply Forall_nil].
  - eapply Yields_bind; [apply Yields_string|]. intros x Hx. apply Yields_ret. cbn. rewrite Hx, Hp, Hd. reflexivity.
  - eapply Yields_bind; [apply Yields_string|]. intros x Hx. apply Yields_ret. cbn. rewrite Hx, Hn, Hd. reflexivity.
  - eapply Yields_bind; [apply Yields_any, Keeps_u32|]. intros x _. apply Yields_ret. cbn. rewrite Hn, Hp, Hd. reflexivity.
  - destruct (fst_size s); [|intros r x r' _ E; discriminate E].
    eapply Yields_bind; [apply Yields_get_data|]. intros x Hx. apply Yields_ret. cbn. rewrite Hn, Hp, Hx. reflexivity.
Qed.

(** ** Byte cursors *)
Definition CGets {A} (m : cu_M A) (p : bytes) (x : A) : Prop := forall rest, m (p ++ rest) = Ok (x, rest).
Lemma CGets_ret {A} (x : A) : CGets (cret x) [] x.
Proof. intros rest. reflexivity. Qed.
Lemma CGets_bind {A B} (m : cu_M A) (k : A -> cu_M B) p q x y : CGets m p x -> CGets (k x) q y -> CGets (cbind m k) (p ++ q) y.
Proof. intros H1 H2 rest. unfold cbind. rewrite <- app_assoc, H1. apply H2. Qed.
Lemma CGets_take p n : n = zlen p -> CGets (cu_take n) p p.
Proof.
  intros -> rest. unfold cu_take. rewrite zlen_app. pose proof (zlen_nonneg rest).
  replace (zlen p + zlen rest <? zlen p) with false by lia. rewrite firstn_zlen, skipn_zlen. reflexivity.
Qed.
Lemma CGets_32 x : CGets cu_32 (w32_bytes x) x.
Proof.
  intros rest. unfold cu_32, cbind. rewrite (CGets_take (w32_bytes x) 4 eq_refl rest). destruct x. reflexivity.
Qed.
Lemma CGets_u8 x : CGets cu_u8 [x] x.
Proof. intros rest. unfold cu_u8, cbind. rewrite (CGets_take [x] 1 eq_refl rest). reflexivity. Qed.
Lemma CGets_pad : CGets get_padding_3 pad3 tt.
Proof. intros rest. unfold get_padding_3, cbind. rewrite (CGets_take pad3 3 eq_refl rest). reflexivity. Qed.
Lemma cbind_inv {A B} (m : cu_M A) (k : A -> cu_M B) b y b' : cbind m k b = Ok (y, b') ->
  exists x b1, m b = Ok (x, b1) /\ k x b1 = Ok (y, b').
Proof. unfold cbind. destruct (m b) as [[x b1]|]; [|discriminate]. eauto. Qed.

(** *** Names *)
Definition sname_ok (s : rstring) : bool := latin1_ok s && (zlen s <=? 31).
Definition name_bytes (s : rstring) : bytes := latin1_bytes s ++ [x00] ++ repeat x00 (Z.to_nat (32 - zlen s - 1)).
Lemma existsb_app_nul a b : existsb is_nul (a ++ x00 :: b) = true.
Proof. rewrite existsb_app. cbn. apply orb_true_r. Qed.
Lemma zlen_repeat {A} (x : A) n : zlen (repeat x n) = Z.of_nat n.
Proof. unfold zlen. rewrite repeat_length. reflexivity. Qed.
Lemma zlen_name s : sname_ok s = true -> zlen (name_bytes s) = 32.
Proof.
  intros H. apply andb_true_iff in H. destruct H as [_ H]. unfold name_bytes.
  rewrite !zlen_app, zlen_latin1_bytes, zlen_repeat. change (zlen [x00]) with 1. pose proof (zlen_nonneg s). lia.
Qed.
Lemma CGets_name s : sname_ok s = true -> CGets (read_padded_cstring 32) (name_bytes s) s.
Proof.
  intros H rest. unfold read_padded_cstring, cbind. rewrite (CGets_take (name_bytes s) 32) by (symmetry; apply zlen_name, H).
  apply andb_true_iff in H. destruct H as [H _]. unfold name_bytes. cbn [app].
  rewrite existsb_app_nul. unfold cret. rewrite (proj1 (until_nul_app _ _ (latin1_bytes_no_nul _ H))), decode_latin1_bytes by exact H.
  reflexivity.
Qed.
Lemma write_name s : sname_ok s = true -> write_padded_cstring_truncate s 32 = Ok (name_bytes s).
Proof.
  intros H. apply andb_true_iff in H. destruct H as [H HL]. unfold write_padded_cstring_truncate.
  rewrite encode_latin1_bytes by exact H. cbn [rbind]. cbv zeta.
  rewrite firstn_all2 by (pose proof (zlen_latin1_bytes s); unfold zlen in *; lia).
  rewrite zlen_latin1_bytes. reflexivity.
Qed.
(** Longer names are cut after 31 characters. *)
Lemma firstn_latin1 n s : latin1_bytes (firstn n s) = firstn n (latin1_bytes s).
Proof. unfold latin1_bytes. symmetry. apply firstn_map. Qed.
Lemma latin1_ok_firstn n s : latin1_ok s = true -> latin1_ok (firstn n s) = true.
Proof.
  unfold latin1_ok. rewrite !forallb_forall. intros H x Hx. apply H. rewrite <- (firstn_skipn n s). apply in_or_app. auto.
Qed.
Lemma write_name_cut s : latin1_ok s = true -> write_padded_cstring_truncate s 32 = write_padded_cstring_truncate (firstn 31 s) 32.
Proof.
  intros H. unfold write_padded_cstring_truncate. rewrite !encode_latin1_bytes by (try apply latin1_ok_firstn; exact H).
  cbn [rbind]. cbv zeta. rewrite firstn_latin1. change (Z.to_nat (32 - 1)) with 31%nat. rewrite firstn_firstn. reflexivity.
Qed.
Lemma sname_cut s : latin1_ok s = true -> sname_ok (firstn 31 s) = true.
Proof.
  intros H. unfold sname_ok. rewrite latin1_ok_firstn by exact H. cbn [andb]. unfold zlen. rewrite firstn_length. lia.
Qed.

(** *** Colors *)
Lemma color_win c : Color_from_win_color (Color_to_win_color c) = c.
Proof.
  destruct c as [r g b u]. unfold Color_from_win_color, Color_to_win_color. cbn [c_r c_g c_b c_unused].
  pose proof (byte_to_Z_range r). pose proof (byte_to_Z_range g). pose proof (byte_to_Z_range b). pose proof (byte_to_Z_range u).
  f_equal; apply byte_to_Z_inj; rewrite byte_to_Z_to_byte; lia.
Qed.
Lemma color_win_range c : 0 <= Color_to_win_color c < 4294967296.
Proof.
  destruct c as [r g b u]. unfold Color_to_win_color. cbn [c_r c_g c_b c_unused].
  pose proof (byte_to_Z_range r). pose proof (byte_to_Z_range g). pose proof (byte_to_Z_range b). pose proof (byte_to_Z_range u). lia.
Qed.
Lemma color_of_win c : color_of_w32 (Z_to_w32 (Color_to_win_color c)) = c.
Proof. unfold color_of_w32. rewrite w32_to_Z_small by apply color_win_range. apply color_win. Qed.

(** *** Legacy materials *)
Definition SaveMaterial_bytes (v : SaveMaterial) : bytes :=
  name_bytes (sm_name v) ++ win_color_bytes (sm_base_color v) ++ win_color_bytes (sm_glossy_color v) ++
  win_color_bytes (sm_clearcoat_color v) ++ w32_bytes (sm_wrap_lighting v) ++
  [if sm_is_metal v then x01 else x00] ++ pad3 ++ w32_bytes (sm_roughness v) ++
  [sm_glossy_image_lerp v] ++ pad3 ++ w32_bytes (sm_edge v) ++ [sm_thickness v] ++ pad3 ++
  w32_bytes (sm_opacity v) ++ [sm_opacity_active_edge_alpha v] ++ pad3.
Definition SaveMaterial_ok (v : SaveMaterial) : bool := sname_ok (sm_name v).
Lemma SaveMaterial_writes v : SaveMaterial_ok v = true -> SaveMaterial_write v = Ok (SaveMaterial_bytes v).
Proof. intros H. unfold SaveMaterial_write. change MAX_NAME_BUFFER with 32. rewrite write_name by exact H. reflexivity. Qed.
Lemma zlen_SaveMaterial v : SaveMaterial_ok v = true -> zlen (SaveMaterial_bytes v) = 76.
Proof. intros H. unfold SaveMaterial_bytes. rewrite zlen_app, zlen_name by exact H. reflexivity. Qed.
Lemma nonempty_not0 (p rest : bytes) : 0 < zlen p -> zlen (p ++ rest) =? 0 = false.
Proof. intros H. rewrite zlen_app. pose proof (zlen_nonneg rest). lia. Qed.
Ltac cg L := eapply CGets_bind; [apply L; assumption|].
Lemma CGets_end {A} (x y : A) : x = y -> CGets (cret x) [] y.
Proof. intros ->. apply CGets_ret. Qed.
Lemma SaveMaterial_gets v : SaveMaterial_ok v = true -> CGets SaveMaterial_read (SaveMaterial_bytes v) v.
Proof.
  intros H rest. unfold SaveMaterial_read. rewrite nonempty_not0 by (rewrite zlen_SaveMaterial by exact H; lia).
  revert rest. change MAX_NAME_BUFFER with 32. unfold SaveMaterial_bytes. unfold SaveMaterial_ok in H.
  cg CGets_name. cg CGets_32. cg CGets_32. cg CGets_32. cg CGets_32. cg CGets_u8. cg CGets_pad. cg CGets_32. cg CGets_u8. cg CGets_pad.
  cg CGets_32. cg CGets_u8. cg CGets_pad. cg CGets_32. cg CGets_u8. rewrite <- (app_nil_r pad3). cg CGets_pad.
  apply CGets_end. rewrite !color_of_win. replace (negb (is_nul (if sm_is_metal v then x01 else x00))) with (sm_is_metal v) by (destruct (sm_is_metal v); reflexivity).
  destruct v. reflexivity.
Qed.

Definition SavePhysicsMaterial_bytes (v : SavePhysicsMaterial) : bytes :=
  name_bytes (sp_name v) ++ w32_bytes (sp_elasticity v) ++ w32_bytes (sp_elasticity_falloff v) ++ w32_bytes (sp_friction v) ++
  w32_bytes (sp_scatter_angle v).
Definition SavePhysicsMaterial_ok (v : SavePhysicsMaterial) : bool := sname_ok (sp_name v).
Lemma SavePhysicsMaterial_writes v : SavePhysicsMaterial_ok v = true -> SavePhysicsMaterial_write v = Ok (SavePhysicsMaterial_bytes v).
Proof. intros H. unfold SavePhysicsMaterial_write. change MAX_NAME_BUFFER with 32. rewrite write_name by exact H. reflexivity. Qed.
Lemma zlen_SavePhysicsMaterial v : SavePhysicsMaterial_ok v = true -> zlen (SavePhysicsMaterial_bytes v) = 48.
Proof. intros H. unfold SavePhysicsMaterial_bytes. rewrite zlen_app, zlen_name by exact H. reflexivity. Qed.
Lemma SavePhysicsMaterial_gets v : SavePhysicsMaterial_ok v = true -> CGets SavePhysicsMaterial_read (SavePhysicsMaterial_bytes v) v.
Proof.
  intros H rest. unfold SavePhysicsMaterial_read. rewrite nonempty_not0 by (rewrite zlen_SavePhysicsMaterial by exact H; lia).
  revert rest. change MAX_NAME_BUFFER with 32. unfold SavePhysicsMaterial_bytes. unfold SavePhysicsMaterial_ok in H.
  cg CGets_name. cg CGets_32. cg CGets_32. cg CGets_32. rewrite <- (app_nil_r (w32_bytes (sp_scatter_angle v))). cg CGets_32.
  apply CGets_end. destruct v. reflexivity.
Qed.

(** *** Blocks *)
Lemma CGets_repeat {A} (m : cu_M A) (f : A -> bytes) l : (forall x, In x l -> CGets m (f x) x) ->
  CGets (cu_repeat (List.length l) m) (flat_map f l) l.
Proof.
  induction l as [|x l IH]; intros H; cbn [List.length cu_repeat flat_map]; [apply CGets_ret|].
  eapply CGets_bind; [apply H; left; reflexivity|]. rewrite <- (app_nil_r (flat_map f l)).
  eapply CGets_bind; [apply IH; intros; apply H; right; assumption|]. apply CGets_ret.
Qed.
Lemma concat_res_ok {A} (w : A -> res bytes) (f : A -> bytes) l : (forall x, In x l -> w x = Ok (f x)) -> concat_res w l = Ok (flat_map f l).
Proof.
  induction l as [|x l IH]; intros H; cbn [concat_res flat_map]; [reflexivity|].
  rewrite H by (left; reflexivity). cbn [rbind]. rewrite IH by (intros; apply H; right; assumption). reflexivity.
Qed.
Lemma zlen_flat_map {A} (f : A -> bytes) k l : (forall x, In x l -> zlen (f x) = k) -> zlen (flat_map f l) = k * zlen l.
Proof.
  induction l as [|x l IH]; intros H; cbn [flat_map]; [change (zlen (@nil byte)) with 0; change (zlen (@nil A)) with 0; lia|].
  rewrite zlen_app, zlen_cons, H by (left; reflexivity). rewrite IH by (intros; apply H; right; assumption). lia.
Qed.
(** what a block is read as, at least *)
Lemma cu_repeat_inv {A} (m : cu_M A) (P : A -> Prop) k : (forall b x b', m b = Ok (x, b') -> P x /\ zlen b = k + zlen b') ->
  forall n b l b', cu_repeat n m b = Ok (l, b') -> Forall P l /\ List.length l = n /\ zlen b = k * Z.of_nat n + zlen b'.
Proof.
  intros H. induction n as [|n IH]; intros b l b' E; cbn [cu_repeat] in E.
  - injection E as <- <-. repeat split; [constructor|lia].
  - apply cbind_inv in E. destruct E as (x & b1 & E1 & E). apply cbind_inv in E. destruct E as (l' & b2 & E2 & E).
    injection E as <- <-. apply H in E1. apply IH in E2. destruct E1 as [HP H1]. destruct E2 as (HF & HL & H2).
    repeat split; [constructor; assumption|cbn; lia|lia].
Qed.
Lemma cu_take_inv n b x b' : cu_take n b = Ok (x, b') -> 0 <= n -> zlen x = n /\ zlen b = n + zlen b'.
Proof.
  unfold cu_take. destruct (zlen b <? n) eqn:E; [discriminate|]. intros H Hn.
  assert (x = firstn (Z.to_nat n) b /\ b' = skipn (Z.to_nat n) b) as [-> ->] by (split; congruence).
  unfold zlen in *. rewrite firstn_length, skipn_length. lia.
Qed.
Lemma cu_lift_inv {A} (x : res A) b y b' : cu_lift x b = Ok (y, b') -> x = Ok y /\ b' = b.
Proof. unfold cu_lift. destruct x; [|discriminate]. intros H. split; congruence. Qed.
Lemma cu_32_inv b x b' : cu_32 b = Ok (x, b') -> zlen b = 4 + zlen b'.
Proof.
  intros E. apply cbind_inv in E. destruct E as (y & b1 & E1 & E2). apply cu_take_inv in E1; [|lia].
  apply cu_lift_inv in E2. destruct E2 as [_ ->]. lia.
Qed.
Lemma cu_u8_inv b x b' : cu_u8 b = Ok (x, b') -> zlen b = 1 + zlen b'.
Proof.
  intros E. apply cbind_inv in E. destruct E as (y & b1 & E1 & E2). apply cu_take_inv in E1; [|lia].
  apply cu_lift_inv in E2. destruct E2 as [_ ->]. lia.
Qed.
Lemma pad_inv b x b' : get_padding_3 b = Ok (x, b') -> zlen b = 3 + zlen b'.
Proof.
  intros E. apply cbind_inv in E. destruct E as (y & b1 & E1 & E2). apply cu_take_inv in E1; [|lia].
  injection E2 as <- <-. lia.
Qed.
Lemma until_nul_lt b : existsb is_nul b = true -> zlen (until_nul b) < zlen b.
Proof.
  induction b as [|c b IH]; cbn [existsb until_nul]; [discriminate|]. destruct (is_nul c); intros H.
  - change (zlen (@nil byte)) with 0. rewrite zlen_cons. pose proof (zlen_nonneg b). lia.
  - rewrite !zlen_cons. specialize (IH H). lia.
Qed.
Lemma name_inv b x b' : read_padded_cstring 32 b = Ok (x, b') -> sname_ok x = true /\ zlen b = 32 + zlen b'.
Proof.
  intros E. apply cbind_inv in E. destruct E as (y & b1 & E1 & E2). apply cu_take_inv in E1; [|lia].
  destruct (existsb is_nul y) eqn:N; [|discriminate]. unfold cret in E2.
  assert (x = decode_latin1 (until_nul y) /\ b' = b1) as [-> ->] by (split; congruence).
  split; [|lia]. unfold sname_ok. rewrite decode_latin1_ok by apply until_nul_no_nul. cbn [andb].
  rewrite zlen_decode_latin1. apply until_nul_lt in N. lia.
Qed.
Ltac ci := match goal with
  | E : cbind _ _ _ = Ok _ |- _ => apply cbind_inv in E; let x := fresh "x" in let b := fresh "b" in let E1 := fresh "E" in destruct E as (x & b & E1 & E);
      first [apply cu_32_inv in E1 | apply cu_u8_inv in E1 | apply pad_inv in E1 | apply name_inv in E1]
  end.
Lemma SaveMaterial_inv b x b' : SaveMaterial_read b = Ok (x, b') -> SaveMaterial_ok x = true /\ zlen b = 76 + zlen b'.
Proof.
  unfold SaveMaterial_read. change MAX_NAME_BUFFER with 32. destruct (zlen b =? 0); [discriminate|]. intros E. repeat ci.
  unfold cret in E. match type of E with Ok (?a, ?c) = _ => assert (x = a /\ b' = c) as [-> ->] by (split; congruence) end.
  unfold SaveMaterial_ok. cbn [sm_name]. split; [apply E0|lia].
Qed.
Lemma SavePhysicsMaterial_inv b x b' : SavePhysicsMaterial_read b = Ok (x, b') -> SavePhysicsMaterial_ok x = true /\ zlen b = 48 + zlen b'.
Proof.
  unfold SavePhysicsMaterial_read. change MAX_NAME_BUFFER with 32. destruct (zlen b =? 0); [discriminate|]. intros E. repeat ci.
  unfold cret in E. match type of E with Ok (?a, ?c) = _ => assert (x = a /\ b' = c) as [-> ->] by (split; congruence) end.
  unfold SavePhysicsMaterial_ok. cbn [sp_name]. split; [apply E0|lia].
Qed.
(** no fuel in cursors *)
Definition CNoof {A} (m : cu_M A) : Prop := forall b, no_oof (m b).
Lemma CNoof_bind {A B} (m : cu_M A) (k : A -> cu_M B) : CNoof m -> (forall x, CNoof (k x)) -> CNoof (cbind m k).
Proof. intros H1 H2 b. unfold cbind. specialize (H1 b). destruct (m b) as [[x b1]|f]; [apply H2|]. intros E. apply H1. congruence. Qed.
Lemma CNoof_take n : CNoof (cu_take n).
Proof. intros b. unfold cu_take, no_oof. destruct (_ <? _); discriminate. Qed.
Lemma CNoof_lift {A} (x : res A) : no_oof x -> CNoof (cu_lift x).
Proof. intros H b. unfold cu_lift, no_oof. destruct x; [discriminate|]. intros E. apply H. congruence. Qed.
Lemma CNoof_ret {A} (x : A) : CNoof (cret x).
Proof. intros b. discriminate. Qed.
Lemma CNoof_32 : CNoof cu_32. Proof. apply CNoof_bind; [apply CNoof_take|]. intros; apply CNoof_lift, w32_of_no_oof. Qed.
Lemma CNoof_u8 : CNoof cu_u8. Proof. apply CNoof_bind; [apply CNoof_take|]. intros; apply CNoof_lift, byte_of_no_oof. Qed.
Lemma CNoof_pad : CNoof get_padding_3. Proof. apply CNoof_bind; [apply CNoof_take|]. intros; apply CNoof_ret. Qed.
Lemma CNoof_name n : CNoof (read_padded_cstring n).
Proof. apply CNoof_bind; [apply CNoof_take|]. intros x. destruct (existsb _ _); [apply CNoof_ret|apply CNoof_lift; discriminate]. Qed.
Ltac cn := repeat first [apply CNoof_bind; [first [apply CNoof_32|apply CNoof_u8|apply CNoof_pad|apply CNoof_name]|intros] | apply CNoof_ret].
Lemma CNoof_SaveMaterial : CNoof SaveMaterial_read.
Proof. intros b. unfold SaveMaterial_read. destruct (zlen b =? 0); [discriminate|]. revert b. cn. Qed.
Lemma CNoof_SavePhysicsMaterial : CNoof SavePhysicsMaterial_read.
Proof. intros b. unfold SavePhysicsMaterial_read. destruct (zlen b =? 0); [discriminate|]. revert b. cn. Qed.
Lemma CNoof_repeat {A} (m : cu_M A) : CNoof m -> forall n, CNoof (cu_repeat n m).
Proof.
  intros H. induction n; cbn [cu_repeat]; [apply CNoof_ret|]. apply CNoof_bind; [exact H|]. intros.
  apply CNoof_bind; [exact IHn|]. intros; apply CNoof_ret.
Qed.

(** ** Render probes *)
Definition RenderProbeG_ok (v : RenderProbeWithGarbage) : bool := RenderProbe_ok (rp_probe v).
Definition RenderProbeG_bytes (v : RenderProbeWithGarbage) : bytes := enc (RenderProbe_recs (rp_probe v) ++ [endb]) ++ rp_trailing v.
Lemma RenderProbeG_writes v : RenderProbeG_ok v = true -> run_writer (RenderProbeG_write v) = Ok (RenderProbeG_bytes v).
Proof.
  intros H. pose proof (run_wapp _ _ (RenderProbe_wapp _ H) ltac:(unfold RenderProbe_write; closes)) as E.
  unfold run_writer, RenderProbeG_write, wseq in *. destruct (RenderProbe_write (rp_probe v) wr_new) as [w|]; [|discriminate].
  unfold write_data. cbn [w_data]. unfold RenderProbeG_bytes. congruence.
Qed.
Lemma RenderProbeG_reads v : RenderProbeG_ok v = true -> reads_as RenderProbeG_read (RenderProbeG_bytes v) v.
Proof.
  intros H c. rewrite rd_new_at. unfold RenderProbeG_read, RenderProbeG_bytes. eexists.
  erewrite bindM_ok. 2:{ unfold disable_warn_remaining. reflexivity. }
  erewrite bindM_ok. 2:{ apply (read_arms_steps _ _ _ _ [] (rp_trailing v) "" false c (RenderProbe_steps _ H)). discriminate. }
  erewrite bindM_ok.
  2:{ unfold get_remaining, at_. cbn [r_data r_pos app]. rewrite zlen_app.
      replace (zlen (enc (RenderProbe_recs (rp_probe v) ++ [endb])) + zlen (rp_trailing v) - zlen (enc (RenderProbe_recs (rp_probe v) ++ [endb]))) with (zlen (rp_trailing v)) by lia.
      pose proof (slice_mid (enc (RenderProbe_recs (rp_probe v) ++ [endb])) (rp_trailing v) [] _ eq_refl) as HS.
      rewrite app_nil_r in HS. rewrite HS. reflexivity. }
  destruct v. reflexivity.
Qed.
Lemma Term_disable_warn : Term disable_warn_remaining.
Proof. intros B r HB [H1 H2]. unfold disable_warn_remaining. cbn. repeat split; assumption. Qed.
Lemma Term_get_remaining : Term get_remaining.
Proof.
  intros B r HB HS. unfold get_remaining. pose proof (slice_no_oof (r_data r) (r_pos r) (zlen (r_data r) - r_pos r)) as H.
  destruct (slice _ _ _); [auto|]. intros ->. apply H. reflexivity.
Qed.
Lemma RenderProbeG_term : Term RenderProbeG_read.
Proof.
  apply Term_bind; [apply Term_disable_warn|]. intros _. apply Term_bind; [apply RenderProbe_term|]. intros p.
  apply Term_bind; [apply Term_get_remaining|]. intros; apply Term_ret.
Qed.
Lemma RenderProbeG_yields : Yields RenderProbeG_read (fun v => RenderProbeG_ok v = true).
Proof.
  eapply Yields_bind; [apply (Yields_any disable_warn_remaining)|].
  { intros r x r' E. injection E as <- <-. reflexivity. }
  intros _ _. eapply Yields_bind; [apply RenderProbe_yields|]. intros p Hp.
  eapply Yields_bind; [apply (Yields_any get_remaining)|].
  { intros r x r' E. unfold get_remaining in E. destruct (slice _ _ _); [|discriminate]. congruence. }
  intros d _. apply Yields_ret. exact Hp.
Qed.

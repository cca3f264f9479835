(** Proofs of the statements about game items. *)
From Coq Require Import Sorted.
From Verif Require Import Base Text Biff Quantize Common Enums ItemBase GameItem.
From Verif Require Import ItemWall ItemPrimitive ItemHitTarget.
From Verif Require Import BaseFacts TextFacts BiffFacts CommonFacts TermFacts QuantizeFacts QuantizeMono EnumsFacts ItemBaseFacts.
From Verif Require Import ItemWallFacts ItemPrimitiveFacts ItemHitTargetFacts GameItemBaseFacts GameItemFacts GameItemStored SpecBiff RecordFacts.

(** ** C02 *)
Lemma gameitem_read_terminates c b : gameitem_read c b <> OutOfFuel.
Proof.
  unfold gameitem_read. pose proof (GameItem_term 0 (rd_new c b) (Z.le_refl 0)) as H.
  assert (HS : Safe 0 (rd_new c b)) by (split; cbn; lia). specialize (H HS).
  destruct (GameItem_read (rd_new c b)) as [[i r]|f]; [discriminate|]. intros E. injection E as ->. apply H. reflexivity.
Qed.

(** ** C08 *)
Lemma read_was_read c b i : zlen b < 2 ^ 32 - 8 -> gameitem_read c b = Ok i -> GameItem_was_read i.
Proof.
  intros HL H. unfold gameitem_read in H. destruct (GameItem_read (rd_new c b)) as [[i' r]|] eqn:E; [|discriminate].
  injection H as <-. eapply (GameItem_yields (rd_new c b)); [|exact E].
  unfold fits. cbn [rd_new r_data]. change (2 ^ 32 - 8) with 4294967288 in HL. lia.
Qed.
Lemma resave c b i : zlen b < 2 ^ 32 - 8 -> gameitem_read c b = Ok i -> (forall t g, i <> GI_Generic t g) ->
  exists b', gameitem_write i = Ok b' /\ (forall c', gameitem_read c' b' = Ok (GI_stored i)) /\
             gameitem_write (GI_stored i) = Ok b'.
Proof.
  intros HL HR HG. destruct (was_read_stored i HG (read_was_read c b i HL HR)) as [HW HO].
  destruct (gameitem_stored_roundtrip i HW HO) as (b' & E1 & E2). exists b'. split; [exact E1|]. split; [exact E2|].
  rewrite <- gameitem_write_stored by exact HW. exact E1.
Qed.
(** The animation frames of a primitive come in pairs of a length and the data. *)
Definition frames_paired (v : Primitive) : Prop :=
  match Primitive_compressed_animation_vertices_len v, Primitive_compressed_animation_vertices_data v with
  | None, None => True
  | Some ls, Some fs => ls <> [] /\ List.length ls = List.length fs
  | _, _ => False
  end.
Lemma frames_stored_paired v : frames_paired v ->
  frames_stored (Primitive_compressed_animation_vertices_len v) (Primitive_compressed_animation_vertices_data v)
  = (Primitive_compressed_animation_vertices_len v, Primitive_compressed_animation_vertices_data v).
Proof.
  unfold frames_paired, frames_stored. destruct (Primitive_compressed_animation_vertices_len v) as [ls|];
    destruct (Primitive_compressed_animation_vertices_data v) as [fs|]; try tauto.
  intros [HN HL]. destruct (map_fst_combine ls fs) as [E1 E2]; [unfold zlen; congruence|].
  destruct (combine ls fs) as [|p ps]; [|rewrite E1, E2; reflexivity]. cbn in E1. congruence.
Qed.
Lemma resave_same c b i : zlen b < 2 ^ 32 - 8 -> gameitem_read c b = Ok i ->
  (forall v, i = GI_Primitive v -> frames_paired v) -> GI_stored i = i.
Proof.
  intros HL HR HF. pose proof (read_was_read c b i HL HR) as H. clear HR.
  destruct i as [v| | | | | | | | | | | | | | |v| | |v| | |]; try (apply GI_stored_id; exact H); [|reflexivity].
  specialize (HF v eq_refl). cbn [GI_stored]. f_equal. cbn [GameItem_was_read] in H.
  assert (HD : opt_ok dili_ok (Primitive_disable_lighting_top_old v) = true) by (unfold Primitive_ok_but_frames in H; split_ok H; asm).
  unfold Primitive_stored. rewrite (dili_stored_id _ HD), (frames_stored_paired v HF). clear H HF HD. destruct v. reflexivity.
Qed.

(** ** C09 *)
Lemma w32_bytes_inj a b : w32_bytes a = w32_bytes b -> a = b.
Proof. destruct a, b. unfold w32_bytes. intros H. injection H as -> -> -> ->. reflexivity. Qed.
Lemma gameitem_read_inv c b i : gameitem_read c b = Ok i ->
  exists t r r', get_u32_no_remaining_update (rd_new c b) = Ok (t, r) /\ GameItem_read_of t r = Ok (i, r').
Proof.
  unfold gameitem_read. change GameItem_read with (y <- get_u32_no_remaining_update ;; GameItem_read_of y).
  destruct ((y <- get_u32_no_remaining_update ;; GameItem_read_of y) (rd_new c b)) as [[i' r']|] eqn:E; [|discriminate].
  intros [= <-]. apply bindM_inv in E. destruct E as (t & r & E1 & E2). eauto.
Qed.
Lemma get_u32_nru_first c b t r : get_u32_no_remaining_update (rd_new c b) = Ok (t, r) -> firstn 4 b = w32_bytes t.
Proof.
  unfold get_u32_no_remaining_update. intros E. apply bindM_inv in E. destruct E as (x & r1 & E1 & E2).
  unfold take in E1. cbn [rd_new r_data r_pos] in E1. unfold slice in E1.
  match type of E1 with context [if ?x then _ else _] => destruct x; [|discriminate] end.
  assert (x = firstn 4 b) by (change (firstn 4 b) with (firstn (Z.to_nat 4) (skipn (Z.to_nat 0) b)); congruence).
  clear E1. subst x. cbv beta in E2. unfold rlift in E2.
  destruct (firstn 4 b) as [|b0 [|b1 [|b2 [|b3 [|? ?]]]]]; try discriminate. cbn [w32_of] in E2. injection E2 as <- _. reflexivity.
Qed.
Definition known_type (t : Z) : Prop := In t [0; 1; 2; 3; 4; 5; 6; 7; 8; 9; 10; 11; 12; 17; 18; 19; 20; 21; 22; 23; 24].
Lemma rlift_inv {A} (x : rd_M A) (B : Type) (f : A -> B) r y r' : (v <- x ;; rret (f v)) r = Ok (y, r') -> exists v, y = f v.
Proof. intros E. apply bindM_inv in E. destruct E as (v & r1 & _ & E). injection E as <- _. eauto. Qed.
Lemma read_dispatch c b i : gameitem_read c b = Ok i ->
  exists t, firstn 4 b = le32 (w32_to_Z t) /\
    match i with
    | GI_Generic t' _ => t' = t /\ ~ (0 <= w32_to_Z t <= 24)
    | _ => GI_type_id (GI_type_name i) = Ok (w32_to_Z t)
    end.
Proof.
  intros E. destruct (gameitem_read_inv c b i E) as (t & r & r' & E1 & E2). exists t. split.
  { rewrite <- le32_w32, Z_to_w32_to_Z. apply (get_u32_nru_first c b t r E1). }
  clear E E1. unfold GameItem_read_of in E2. cbv zeta in E2.
  repeat match type of E2 with
  | (if ?z =? ?n then _ else _) _ = _ =>
      let Ez := fresh "Ez" in destruct (z =? n) eqn:Ez;
      [ first [ discriminate E2
              | apply rlift_inv in E2; destruct E2 as (v & ->); apply Z.eqb_eq in Ez; rewrite Ez; reflexivity ]
      | apply Z.eqb_neq in Ez ]
  end.
  apply rlift_inv in E2. destruct E2 as (v & ->). split; [reflexivity|]. lia.
Qed.
Lemma read_reserved c b t : 13 <= w32_to_Z t <= 16 -> firstn 4 b = w32_bytes t -> gameitem_read c b = Panic.
Proof.
  intros Ht Hb. destruct (gameitem_read c b) as [i|f] eqn:E.
  - exfalso. destruct (gameitem_read_inv c b i E) as (t' & r & r' & E1 & E2).
    assert (t' = t). { apply get_u32_nru_first in E1. rewrite Hb in E1. apply w32_bytes_inj in E1. auto. }
    subst t'. unfold GameItem_read_of in E2. cbv zeta in E2.
    repeat match type of E2 with
    | (if ?z =? ?n then _ else _) _ = _ => destruct (z =? n) eqn:?; [first [discriminate E2 | lia]|]
    end. lia.
  - unfold gameitem_read in E. change GameItem_read with (y <- get_u32_no_remaining_update ;; GameItem_read_of y) in E.
    unfold rbindM in E. destruct (get_u32_no_remaining_update (rd_new c b)) as [[t' r]|f'] eqn:E1.
    + assert (t' = t). { apply get_u32_nru_first in E1. rewrite Hb in E1. apply w32_bytes_inj in E1. auto. }
      subst t'. unfold GameItem_read_of in E. cbv zeta in E.
      repeat match type of E with
      | context [if ?z =? ?n then _ else _] => destruct (z =? n) eqn:?; [first [lia | symmetry; exact E]|]
      end. lia.
    + exfalso. unfold get_u32_no_remaining_update, rbindM, take in E1. cbn [rd_new r_data r_pos] in E1. unfold slice in E1.
      assert (HL : 4 <= zlen b).
      { unfold zlen. pose proof (firstn_le_length 4 b) as H1. pose proof (f_equal (@List.length byte) Hb) as H2.
        rewrite firstn_length in H2. change (List.length (w32_bytes t)) with 4%nat in H2. lia. }
      replace ((0 <=? 0) && (0 <=? 4) && (0 + 4 <=? zlen b)) with true in E1 by lia.
      change (skipn (Z.to_nat 0) b) with b in E1. change (Z.to_nat 4) with 4%nat in E1. rewrite Hb in E1. destruct t; discriminate.
Qed.
Lemma write_dispatch i : GI_writable i = true -> GameItem_ok (GI_stored i) = true ->
  exists b n, gameitem_write i = Ok b /\ GI_type_id (GI_type_name i) = Ok n /\ firstn 4 b = le32 n.
Proof.
  intros HW HO. rewrite (gameitem_write_stored i HW), (gameitem_write_ok _ HO).
  eexists. exists (w32_to_Z (GameItem_type (GI_stored i))). split; [reflexivity|]. split.
  - destruct i; try reflexivity. discriminate HW.
  - rewrite <- le32_w32, Z_to_w32_to_Z. destruct (GameItem_type (GI_stored i)). reflexivity.
Qed.
Lemma generic_write t g : gameitem_write (GI_Generic t g) = Panic.
Proof. reflexivity. Qed.

(** Items of unknown types. *)
Lemma Steps_generic rs : Forall valid_record rs -> Forall (fun r => fst r <> "NAME"%string) rs ->
  forall n acc, Steps Generic_handler (mkGeneric n acc) (map rec_of rs) (mkGeneric n (acc ++ rs)).
Proof.
  induction 1 as [|[t p] rs H _ IH]; intros HN n acc; cbn [map]; [rewrite app_nil_r; constructor|].
  inversion HN as [|? ? HN1 HN2]; subst. destruct (valid_rec_ok t p H) as (Ht & Hs & He).
  change (rec_of (t, p)) with (R t p). apply Steps_one_cons with (s' := mkGeneric n (acc ++ [(t, p)])).
  - apply rec_ok_of; [|exact Hs]. rewrite Ht. cbn [andb]. apply negb_true_iff, String.eqb_neq, He.
  - intros pre rest w c Hr. unfold Generic_handler. cbn [fst] in HN1. apply String.eqb_neq in HN1. rewrite HN1.
    apply (ArmH_data (fun g p => mkGeneric (Generic_name g) (Generic_fields g ++ [(t, p)]))). exact Hr.
  - replace (acc ++ (t, p) :: rs) with ((acc ++ [(t, p)]) ++ rs) by (rewrite <- app_assoc; reflexivity). apply IH, HN2.
Qed.
Lemma Steps_generic_name n : wstr_ok n = true -> Steps Generic_handler (mkGeneric [] []) [R "NAME" (wstring_bytes n)] (mkGeneric n []).
Proof.
  intros H. apply Steps_one; [|intros pre rest w c Hr].
  - apply rec_ok_of; [reflexivity|]. unfold wstring_bytes. rewrite lp_len. unfold wstr_ok, fits in H.
    apply andb_true_iff in H. destruct H as [_ H]. pose proof (zlen_nonneg (encode_utf16le n)). unfold size_ok, two32. lia.
  - unfold Generic_handler. cbn [String.eqb Ascii.eqb Bool.eqb].
    apply (ArmH_get get_wide_string (fun g x => mkGeneric x (Generic_fields g)) (wstring_bytes n) n (mkGeneric [] []) (Gets_wstring n H)). exact Hr.
Qed.
Lemma read_generic c t n rs : ~ (0 <= w32_to_Z t <= 24) -> Forall scalar_value n -> zlen (encode_utf16le n) < 2 ^ 32 - 8 ->
  Forall valid_record rs -> Forall (fun r => fst r <> "NAME"%string) rs ->
  gameitem_read c (le32 (w32_to_Z t) ++ stream_bytes (("NAME"%string, le32 (zlen (encode_utf16le n)) ++ encode_utf16le n) :: rs))
  = Ok (GI_Generic t (mkGeneric n rs)).
Proof.
  intros Ht Hn Hl HV HN. 
  assert (HW : wstr_ok n = true).
  { unfold wstr_ok, fits. apply is_rstring_scalars in Hn. rewrite Hn. change (2 ^ 32 - 8) with 4294967288 in Hl. lia. }
  rewrite <- (le32_w32 (w32_to_Z t)), Z_to_w32_to_Z.
  rewrite <- stream_enc.
  2:{ constructor; [|exact HV]. split; [|split].
      - apply tag_ok_valid. reflexivity.
      - discriminate.
      - cbn [snd]. rewrite zlen_app. change (zlen (le32 _)) with 4. change (2 ^ 32) with 4294967296. change (2 ^ 32 - 8) with 4294967288 in Hl. lia. }
  cbn [map]. change (rec_of ("NAME"%string, le32 (zlen (encode_utf16le n)) ++ encode_utf16le n)) with (R "NAME" (le32 (zlen (encode_utf16le n)) ++ encode_utf16le n)).
  rewrite <- le32_w32. fold (lp_bytes (encode_utf16le n)). fold (wstring_bytes n).
  assert (HS : Steps Generic_handler (mkGeneric [] []) (R "NAME" (wstring_bytes n) :: map rec_of rs) (mkGeneric n rs)).
  { change (R "NAME" (wstring_bytes n) :: map rec_of rs) with ([R "NAME" (wstring_bytes n)] ++ map rec_of rs).
    eapply Steps_app; [apply Steps_generic_name, HW|]. apply (Steps_generic rs HV HN n []). }
  unfold gameitem_read.
  destruct (typed_read (x <- Generic_read ;; rret (GI_Generic t x)) GameItem_read_of t
              (enc ((R "NAME" (wstring_bytes n) :: map rec_of rs) ++ [endb])) (GI_Generic t (mkGeneric n rs)) c) as [r E].
  - intros r. unfold GameItem_read_of. cbv zeta.
    repeat match goal with |- context [if ?z =? ?m then _ else _] => replace (z =? m) with false by lia end. reflexivity.
  - unfold rbindM, Generic_read. rewrite <- (app_nil_r (enc _)).
    rewrite (run_loop_steps Generic_handler _ _ _ (w32_bytes t) [] "" true c HS (fun _ => eq_refl)). eexists. reflexivity.
  - change GameItem_read with (y <- get_u32_no_remaining_update ;; GameItem_read_of y). rewrite E. reflexivity.
Qed.

(** ** C38 *)
Lemma rstring_eqb_eq a b : rstring_eqb a b = true <-> a = b.
Proof. unfold rstring_eqb. destruct (list_eq_dec N.eq_dec a b); split; congruence. Qed.
Definition group_named (items : list GameItem) (j : nat) (g : rstring) : Prop :=
  exists v, nth_error items j = Some (GI_PartGroup v) /\ ItemPartGroup.PartGroup_name v = g.
Lemma validate_from_spec items : forall k defined w,
  In w (validate_from k defined items) <->
  exists j i g, nth_error items j = Some i /\ GI_part_group_name i = Some g /\ ~ In g defined /\
                (forall j', (j' <= j)%nat -> ~ group_named items j' g) /\ w = mkPGW (k + j) (GI_name i) (GI_type_name i) g.
Proof.
  induction items as [|it items IH]; intros k defined w; cbn [validate_from].
  - split; [intros []|]. intros ([|j] & i & g & H & _); discriminate.
  - set (defined' := match it with GI_PartGroup pg => _ | _ => _ end).
    assert (HD : forall g, In g defined' <-> In g defined \/ group_named (it :: items) 0 g).
    { intros g. unfold defined', group_named. cbn [nth_error]. split.
      - destruct it; auto. cbn [In]. intros [<-|H]; eauto.
      - intros [H|(v & E & <-)]; [destruct it; cbn [In]; auto|]. injection E as ->. left. reflexivity. }
    rewrite in_app_iff, IH. split.
    + intros [H|(j & i & g & H1 & H2 & H3 & H4 & ->)].
      * destruct (GI_part_group_name it) as [g|] eqn:Eg; [|destruct H].
        destruct (existsb (rstring_eqb g) defined') eqn:Ex; [destruct H|]. destruct H as [<-|[]].
        assert (HN : ~ In g defined').
        { intros Hin. rewrite <- not_true_iff_false, existsb_exists in Ex. apply Ex. exists g. split; [exact Hin|apply rstring_eqb_eq; reflexivity]. }
        exists 0%nat, it, g. rewrite Nat.add_0_r. repeat split; auto.
        -- intros H. apply HN, HD. auto.
        -- intros j' Hj Hg. assert (j' = 0)%nat by lia. subst. apply HN, HD. auto.
      * exists (Datatypes.S j), i, g. repeat split; auto.
        -- intros H. apply H3, HD. auto.
        -- intros [|j'] Hj Hg; [apply H3, HD; auto|]. apply (H4 j'); [lia|exact Hg].
        -- f_equal. lia.
    + intros ([|j] & i & g & H1 & H2 & H3 & H4 & ->).
      * left. cbn in H1. injection H1 as ->. rewrite H2.
        assert (HN : existsb (rstring_eqb g) defined' = false).
        { apply not_true_iff_false. rewrite existsb_exists. intros (x & Hx & E). apply rstring_eqb_eq in E. subst x.
          apply HD in Hx. destruct Hx as [Hx|Hx]; [contradiction|]. apply (H4 0%nat); [lia|exact Hx]. }
        rewrite HN, Nat.add_0_r. left. reflexivity.
      * right. exists j, i, g. repeat split; auto.
        -- intros Hin. apply HD in Hin. destruct Hin as [Hin|Hin]; [contradiction|]. apply (H4 0%nat); [lia|exact Hin].
        -- intros j' Hj Hg. apply (H4 (Datatypes.S j')); [lia|exact Hg].
        -- f_equal. lia.
Qed.
Lemma validate_exact items w :
  In w (validate_part_group_order items) <->
  exists j i g, nth_error items j = Some i /\ GI_part_group_name i = Some g /\
                (forall j', (j' <= j)%nat -> ~ group_named items j' g) /\ w = mkPGW j (GI_name i) (GI_type_name i) g.
Proof.
  unfold validate_part_group_order. rewrite validate_from_spec. split.
  - intros (j & i & g & H1 & H2 & _ & H4 & ->). exists j, i, g. auto.
  - intros (j & i & g & H1 & H2 & H4 & ->). exists j, i, g. repeat split; auto.
Qed.
Lemma validate_from_sorted items : forall k defined,
  StronglySorted lt (map pgw_index (validate_from k defined items)) /\
  Forall (fun n => (k <= n)%nat) (map pgw_index (validate_from k defined items)).
Proof.
  induction items as [|it items IH]; intros k defined; cbn [validate_from map]; [split; constructor|].
  set (defined' := match it with GI_PartGroup pg => _ | _ => _ end).
  destruct (IH (Datatypes.S k) defined') as [H1 H2]. rewrite map_app.
  assert (H3 : Forall (fun n => (k <= n)%nat) (map pgw_index (validate_from (Datatypes.S k) defined' items))).
  { eapply Forall_impl; [|exact H2]. cbn. intros; lia. }
  destruct (GI_part_group_name it) as [g|]; [destruct (existsb _ _)|]; cbn [map app pgw_index]; auto.
  split; constructor; auto.
Qed.

(** ** C40 *)
Ltac eta := match goal with |- ?c ?a = ?c ?b => apply (f_equal c) end.
Ltac each_item i := destruct i as [v|v|v|v|v|v|v|v|v|v|v|v|v|v|v|v|v|v|v|v|v|t g].

Lemma locked_get x i : (forall t g, i <> GI_Generic t g) ->
  GI_is_locked (GI_set_locked (Some x) i) = Some x.
Proof. intros H. each_item i; try reflexivity. exfalso. exact (H t g eq_refl). Qed.
Lemma locked_put i : GI_set_locked (GI_is_locked i) i = i.
Proof. each_item i; try reflexivity; cbn [GI_set_locked GI_is_locked]; f_equal; destruct v; reflexivity. Qed.
Lemma locked_put_put x y i : GI_set_locked (Some y) (GI_set_locked x i) = GI_set_locked (Some y) i.
Proof. each_item i; try reflexivity; destruct x; reflexivity. Qed.

(** Part groups and items of unknown types have no editor layer. *)
Definition no_layer (i : GameItem) : Prop := match i with GI_PartGroup _ | GI_Generic _ _ => True | _ => False end.
Lemma layer_get x i : ~ no_layer i -> GI_editor_layer (GI_set_editor_layer x i) = x.
Proof. intros H. each_item i; try reflexivity; exfalso; apply H; exact I. Qed.
Lemma layer_put i : GI_set_editor_layer (GI_editor_layer i) i = i.
Proof. each_item i; try reflexivity; cbn [GI_set_editor_layer GI_editor_layer]; f_equal; destruct v; reflexivity. Qed.
Lemma layer_put_put x y i : GI_set_editor_layer y (GI_set_editor_layer x i) = GI_set_editor_layer y i.
Proof. each_item i; reflexivity. Qed.

Definition is_generic (i : GameItem) : Prop := match i with GI_Generic _ _ => True | _ => False end.
Lemma layer_name_get x i : ~ is_generic i -> GI_editor_layer_name (GI_set_editor_layer_name x i) = x.
Proof. intros H. each_item i; try reflexivity; exfalso; apply H; exact I. Qed.
Lemma layer_name_put i : GI_set_editor_layer_name (GI_editor_layer_name i) i = i.
Proof. each_item i; try reflexivity; cbn [GI_set_editor_layer_name GI_editor_layer_name]; f_equal; destruct v; reflexivity. Qed.
Lemma layer_name_put_put x y i : GI_set_editor_layer_name y (GI_set_editor_layer_name x i) = GI_set_editor_layer_name y i.
Proof. each_item i; reflexivity. Qed.

Lemma layer_vis_get x i : ~ is_generic i -> GI_editor_layer_visibility (GI_set_editor_layer_visibility x i) = x.
Proof. intros H. each_item i; try reflexivity; exfalso; apply H; exact I. Qed.
Lemma layer_vis_put i : GI_set_editor_layer_visibility (GI_editor_layer_visibility i) i = i.
Proof. each_item i; try reflexivity; cbn [GI_set_editor_layer_visibility GI_editor_layer_visibility]; f_equal; destruct v; reflexivity. Qed.
Lemma layer_vis_put_put x y i : GI_set_editor_layer_visibility y (GI_set_editor_layer_visibility x i) = GI_set_editor_layer_visibility y i.
Proof. each_item i; reflexivity. Qed.

Lemma restored i x y z w :
  GI_set_locked (GI_is_locked i) (GI_set_editor_layer (GI_editor_layer i)
    (GI_set_editor_layer_name (GI_editor_layer_name i) (GI_set_editor_layer_visibility (GI_editor_layer_visibility i)
      (GI_set_locked (Some x) (GI_set_editor_layer y (GI_set_editor_layer_name z (GI_set_editor_layer_visibility w i)))))))
  = i.
Proof.
  each_item i; try reflexivity;
  cbn [GI_set_locked GI_is_locked GI_set_editor_layer_visibility GI_editor_layer_visibility GI_set_editor_layer GI_editor_layer GI_set_editor_layer_name GI_editor_layer_name];
  f_equal; destruct v; reflexivity.
Qed.
Ltac refls := repeat match goal with |- _ /\ _ => split | |- _ = _ => reflexivity end.
(** What setting the four attributes leaves alone. *)
Definition same_elsewhere (i j : GameItem) : Prop :=
  GI_type_name j = GI_type_name i /\ GI_name j = GI_name i /\ GI_part_group_name j = GI_part_group_name i /\
  GI_images j = GI_images i /\ GI_materials j = GI_materials i /\ GI_physics_material j = GI_physics_material i /\
  GI_is_visible j = GI_is_visible i.
Lemma set_locked_elsewhere x i : same_elsewhere i (GI_set_locked x i) /\
  GI_editor_layer (GI_set_locked x i) = GI_editor_layer i /\ GI_editor_layer_name (GI_set_locked x i) = GI_editor_layer_name i /\
  GI_editor_layer_visibility (GI_set_locked x i) = GI_editor_layer_visibility i.
Proof. unfold same_elsewhere. each_item i; refls; destruct x; reflexivity. Qed.
Lemma set_layer_elsewhere x i : same_elsewhere i (GI_set_editor_layer x i) /\
  GI_is_locked (GI_set_editor_layer x i) = GI_is_locked i /\ GI_editor_layer_name (GI_set_editor_layer x i) = GI_editor_layer_name i /\
  GI_editor_layer_visibility (GI_set_editor_layer x i) = GI_editor_layer_visibility i.
Proof. unfold same_elsewhere. each_item i; refls. Qed.
Lemma set_layer_name_elsewhere x i : same_elsewhere i (GI_set_editor_layer_name x i) /\
  GI_is_locked (GI_set_editor_layer_name x i) = GI_is_locked i /\ GI_editor_layer (GI_set_editor_layer_name x i) = GI_editor_layer i /\
  GI_editor_layer_visibility (GI_set_editor_layer_name x i) = GI_editor_layer_visibility i.
Proof. unfold same_elsewhere. each_item i; refls. Qed.
Lemma set_layer_vis_elsewhere x i : same_elsewhere i (GI_set_editor_layer_visibility x i) /\
  GI_is_locked (GI_set_editor_layer_visibility x i) = GI_is_locked i /\ GI_editor_layer (GI_set_editor_layer_visibility x i) = GI_editor_layer i /\
  GI_editor_layer_name (GI_set_editor_layer_visibility x i) = GI_editor_layer_name i.
Proof. unfold same_elsewhere. each_item i; refls. Qed.
Lemma set_locked_none i : GI_set_locked None i = match i with GI_LightSequencer _ => GI_set_locked None i | _ => i end.
Proof. each_item i; reflexivity. Qed.

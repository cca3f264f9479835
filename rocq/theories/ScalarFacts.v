(** Numbers and flags in records. *)
From Coq Require Import Lia.
From Verif Require Import Base Text Biff Common ItemBase SpecBiff.
From Verif Require Import BaseFacts TextFacts BiffFacts CommonFacts TermFacts ItemBaseFacts RecordFacts.

Lemma Steps_values_as {A C} t (g : rd_M A) (enc1 : C -> bytes) (dec1 : C -> A) xs : tag_ok t = true -> t <> "ENDB"%string ->
  (forall x, In x xs -> Gets g (enc1 x) (dec1 x) /\ size_ok (zlen (enc1 x)) = true) ->
  forall acc, Steps (values_of t g) acc (map (fun x => R t (enc1 x)) xs) (acc ++ map dec1 xs).
Proof.
  intros Ht He. induction xs as [|x xs IH]; intros H acc; cbn [map].
  - rewrite app_nil_r. constructor.
  - destruct (H x (or_introl eq_refl)) as [HG HS].
    eapply Steps_one_cons with (s' := acc ++ [dec1 x]).
    + apply rec_ok_of; [|exact HS]. rewrite Ht. cbn [andb]. apply negb_true_iff, String.eqb_neq, He.
    + intros pre rest w c Hr. unfold values_of. rewrite String.eqb_refl.
      apply (ArmH_get g (fun acc x => acc ++ [x]) (enc1 x) (dec1 x) acc HG). exact Hr.
    + replace (acc ++ dec1 x :: map dec1 xs) with ((acc ++ [dec1 x]) ++ map dec1 xs) by (rewrite <- app_assoc; reflexivity).
      apply IH. intros; apply H; right; assumption.
Qed.
Lemma values_as {A C} t (g : rd_M A) (w : C -> wr_M) (enc1 : C -> bytes) (dec1 : C -> A) xs : valid_tag t -> t <> "ENDB"%string ->
  (forall x, In x xs -> Gets g (enc1 x) (dec1 x) /\ size_ok (zlen (enc1 x)) = true /\ wapp (w x) (enc_rec (R t (enc1 x)))) ->
  exists b, run_writer (wfor xs w >>> close true) = Ok b /\ forall c, read_values t g c b = Ok (map dec1 xs).
Proof.
  intros Ht He H. apply tag_ok_valid in Ht. exists (enc (map (fun x => R t (enc1 x)) xs ++ [endb])). split.
  - apply run_wapp; [|apply Closes_seq, Closes_close]. apply wapp_app; [|apply wapp_close].
    assert (G : forall x, In x xs -> wapp (w x) (enc_rec (R t (enc1 x)))) by (intros; apply H; assumption).
    clear H. induction xs as [|x xs IH]; cbn [wfor map]; [apply wapp_skip|].
    apply wapp_cons; [apply G; left; reflexivity|]. apply IH. intros; apply G; right; assumption.
  - intros c. unfold read_values. rewrite rd_new_at.
    rewrite <- (app_nil_r (enc _)).
    rewrite (run_loop_steps _ [] _ (map dec1 xs)); [reflexivity| |reflexivity].
    apply (Steps_values_as t g enc1 dec1 xs Ht He) with (acc := []).
    intros x Hx. destruct (H x Hx) as (H1 & H2 & _). auto.
Qed.

Lemma zero_bytes x : forallb is_nul (w32_bytes x) = (w32_to_Z x =? 0).
Proof.
  destruct x as [a b c d]. pose proof (byte_to_Z_range a). pose proof (byte_to_Z_range b). pose proof (byte_to_Z_range c). pose proof (byte_to_Z_range d).
  assert (Z : forall b, is_nul b = (byte_to_Z b =? 0)) by (intros []; reflexivity).
  unfold w32_bytes, w32_to_Z. cbn [forallb w32_0 w32_1 w32_2 w32_3]. rewrite !Z, andb_true_r.
  destruct (Z.eqb_spec (byte_to_Z a) 0), (Z.eqb_spec (byte_to_Z b) 0), (Z.eqb_spec (byte_to_Z c) 0), (Z.eqb_spec (byte_to_Z d) 0); cbn [andb];
    symmetry; first [apply Z.eqb_eq; lia | apply Z.eqb_neq; lia].
Qed.
Lemma get_bool_any pre x rest n t w c :
  4 <= n -> get_bool (at_ pre (w32_bytes x ++ rest) n t w c) = Ok (negb (w32_to_Z x =? 0), at_ (pre ++ w32_bytes x) rest (n - 4) t w c).
Proof. intros H. unfold get_bool. at_step take_at. at_step sub_rem_at. rewrite zero_bytes. reflexivity. Qed.

Lemma flags_read t (xs : list u32) : valid_tag t -> t <> "ENDB"%string ->
  exists b, run_writer (wfor xs (write_tagged_u32 t) >>> close true) = Ok b /\
            forall c, read_values t get_bool c b = Ok (map (fun x => negb (w32_to_Z x =? 0)) xs).
Proof.
  intros Ht He. apply (values_as t get_bool (write_tagged_u32 t) w32_bytes (fun x => negb (w32_to_Z x =? 0)) xs Ht He). intros x _. split; [|split].
  - intros pre rest n tg w c Hn. apply get_bool_any. exact Hn.
  - reflexivity.
  - apply tag_ok_valid in Ht. apply wapp_tagged; [exact Ht|reflexivity|apply wbody_u32].
Qed.
Lemma values_back {A} t (g : rd_M A) (w : A -> wr_M) (enc1 : A -> bytes) xs : valid_tag t -> t <> "ENDB"%string ->
  (forall x, In x xs -> Gets g (enc1 x) x /\ size_ok (zlen (enc1 x)) = true /\ wapp (w x) (enc_rec (R t (enc1 x)))) ->
  exists b, run_writer (wfor xs w >>> close true) = Ok b /\ forall c, read_values t g c b = Ok xs.
Proof.
  intros Ht He H. destruct (values_as t g w enc1 (fun x => x) xs Ht He H) as (b & E & R). exists b. split; [exact E|]. intros c. rewrite R, map_id. reflexivity.
Qed.
Lemma flags_written t xs : valid_tag t -> t <> "ENDB"%string ->
  exists b, run_writer (wfor xs (write_tagged_bool t) >>> close true) = Ok b /\ forall c, read_values t get_bool c b = Ok xs.
Proof.
  intros Ht He. apply (values_back t get_bool (write_tagged_bool t) bool_bytes xs Ht He). intros x _. split; [|split].
  - intros pre rest n tg w c Hn. apply get_bool_at. exact Hn.
  - destruct x; reflexivity.
  - apply tag_ok_valid in Ht. apply wapp_tagged; [exact Ht|destruct x; reflexivity|apply wbody_bool].
Qed.
Lemma numbers_written t (xs : list w32) : valid_tag t -> t <> "ENDB"%string ->
  exists b, run_writer (wfor xs (write_tagged_u32 t) >>> close true) = Ok b /\ run_writer (wfor xs (write_tagged_i32 t) >>> close true) = Ok b /\
    run_writer (wfor xs (write_tagged_f32 t) >>> close true) = Ok b /\
    forall c, read_values t get_u32 c b = Ok xs /\ read_values t get_i32 c b = Ok xs /\ read_values t get_32 c b = Ok xs /\ read_values t get_f32 c b = Ok xs.
Proof.
  intros Ht He. assert (G : forall g, (forall x, Gets g (w32_bytes x) x) -> exists b, run_writer (wfor xs (write_tagged_u32 t) >>> close true) = Ok b /\ forall c, read_values t g c b = Ok xs).
  { intros g Hg. apply (values_back t g (write_tagged_u32 t) w32_bytes xs Ht He). intros x _. split; [apply Hg|split; [reflexivity|]].
    apply wapp_tagged; [apply tag_ok_valid; exact Ht|reflexivity|apply wbody_u32]. }
  destruct (G get_u32) as (b & E & R1); [intros x pre rest n tg w c Hn; apply get_u32_at; exact Hn|].
  destruct (G get_i32) as (b2 & E2 & R2); [intros x pre rest n tg w c Hn; apply get_i32_at; exact Hn|]. rewrite E in E2. injection E2 as <-.
  destruct (G get_32) as (b3 & E3 & R3); [intros x pre rest n tg w c Hn; apply get_32_at; exact Hn|]. rewrite E in E3. injection E3 as <-.
  destruct (G get_f32) as (b4 & E4 & R4); [intros x pre rest n tg w c Hn; apply get_f32_at; exact Hn|]. rewrite E in E4. injection E4 as <-.
  exists b. split; [exact E|split; [exact E|split; [exact E|]]]. intros c. auto.
Qed.

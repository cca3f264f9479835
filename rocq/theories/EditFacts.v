(** Proofs about editing table files in place: locking, and importing a script. *)
From Verif Require Import Base Text Biff Quantize Common Enums Structs GameItem GameData Image Sound Cfb TableInfo Vpx.
From Verif Require Import BaseFacts TextFacts BiffFacts CommonFacts RecordFacts GameDataFacts GameDataProps.
From Verif Require Import SpecBiff SpecStructs StructsProps CfbFacts SpecVpx MacFacts TableFacts.

Lemma utf8_char_nul ch : In x00 (utf8_char ch) -> is_scalar ch = true -> ch = 0%N.
Proof.
  intros H V. unfold is_scalar in V. assert (B : Z.of_N ch < 1114112) by lia.
  assert (E : forall z, x00 = Z_to_byte z -> z mod 256 = 0).
  { intros z Hz. rewrite <- byte_to_Z_to_byte, <- Hz. reflexivity. }
  unfold utf8_char in H. cbv zeta in H.
  repeat match type of H with context [if ?b then _ else _] => destruct b eqn:? end; cbn [In] in H;
    repeat (destruct H as [H|H]); try contradiction; symmetry in H; apply E in H; lia.
Qed.

Section E.
Variable up : N -> N.
Variable md2 : bytes -> bytes.
Local Notation fpath := (fpath up).
Local Notation cf_node := (cf_node up).
Notation GD := [GameStg; lit "GameData"].
Notation MACP := [GameStg; lit "MAC"].

Definition cf_put (p : cpath) (n : node) (f : cfile) : cfile := match cf_find up p f with Some _ => cf_set up p n f | None => f ++ [(p, n)] end.
Lemma set_names p n f : map fst (cf_set up p n f) = map fst f.
Proof. induction f as [|[q m] f IH]; [reflexivity|]. cbn [cf_set]. destruct (path_eqb up p q); cbn [map fst]; congruence. Qed.
Lemma put_names p n f : map fst (cf_put p n f) = map fst f \/ cf_find up p f = None /\ map fst (cf_put p n f) = map fst f ++ [p].
Proof. unfold cf_put. destruct (cf_find up p f); [left; apply set_names|right]. rewrite map_app. auto. Qed.
Lemma node_put q p n f : q <> [] -> p <> [] -> cf_node q (cf_put p n f) = if path_eqb up q p then Some n else cf_node q f.
Proof.
  intros Hq Hp. unfold cf_put. destruct (cf_find up p f) eqn:E.
  - rewrite cf_node_set by assumption. rewrite (cf_node_find up p f Hp), E. reflexivity.
  - rewrite !cf_node_find by assumption. rewrite cf_find_app. cbn [cf_find]. destruct (path_eqb up q p) eqn:EP.
    + apply path_eqb_iff in EP. rewrite (cf_find_fpath up q p f EP), E. reflexivity.
    + destruct (cf_find up q f); reflexivity.
Qed.
Lemma put_agree p n f : p <> [] -> unhashed up p -> Agree up f (cf_put p n f).
Proof. intros Hp Hu. unfold cf_put. destruct (cf_find up p f); [apply agree_set|apply agree_app]; assumption. Qed.
Lemma store_put p d f : p <> [] -> cf_node (removelast p) f = Some Storage -> cf_node p f <> Some Storage -> valid_stream_name (last p []) = true ->
  cf_store up true p (Ok d) f = Ok (cf_put p (Stream d) f).
Proof.
  intros Hp Hs Hn Hv. unfold cf_put. destruct (cf_find up p f) as [[|d0]|] eqn:E.
  - rewrite cf_node_find in Hn by exact Hp. congruence.
  - apply (cf_store_old up p d d0). rewrite cf_node_find by exact Hp. exact E.
  - apply cf_store_new; try assumption. apply cf_find_none, E.
Qed.
Lemma same_path_eqb q p : path_eqb up q p = true -> same_path up q p.
Proof.
  intros H. apply path_eqb_iff in H. unfold fpath in H. revert p H. induction q as [|a q IH]; intros [|b p] H; try discriminate; [constructor|].
  cbn [map] in H. injection H as H1 H2. constructor; [exact H1|apply IH, H2].
Qed.
Lemma agree_trans f g h : Agree up f g -> Agree up g h -> Agree up f h.
Proof. intros (A1 & A2 & A3) (B1 & B2 & B3). split; [|split]; intros; [rewrite A1, B1 by assumption|rewrite A2, B2|rewrite A3, B3]; reflexivity. Qed.
Lemma bytes_eqb_refl b : bytes_eqb b b = true.
Proof. induction b as [|x b IH]; [reflexivity|]. cbn [bytes_eqb]. rewrite IH, Byte.byte_dec_lb; reflexivity. Qed.

(** ** Replacing the game data *)
Lemma editable_version f ver tags cols d : editable up f ver tags cols d -> read_version up f = Ok ver.
Proof. intros (_ & HV & _). unfold read_version, cf_get. rewrite HV. destruct ver. reflexivity. Qed.
Lemma rewrite_game_data checked g f ver tags cols d0 : editable up f ver tags cols d0 -> GameData_ok g = true ->
  exists before script after f',
    GameData_write (w32_to_Z ver) g = Ok (game_data_layout before script after) /\ gt_code (gd_tail g) = swe_of_bytes script /\
    (f1 <~ write_game_data up g ver f ;; mac <~ generate_mac up md2 checked f1 ;; write_mac up mac f1) = Ok f' /\
    only_game_data_changed up f f' (game_data_layout before script after)
      (md2 (hashed_file up f tags (hashed_game_data before script after) cols)) /\
    editable up f' ver tags cols (game_data_layout before script after) /\
    (forall c, verify up md2 c f' = Ok VerifyOk).
Proof.
  intros (HG & HV & HD & HM & HH) HO. destruct (game_data_hashed_ok (w32_to_Z ver) g HO) as (before & script & after & W & VB & VA & NC & FS & EC).
  set (gd := game_data_layout before script after) in *. set (f1 := cf_put GD (Stream gd) f). set (mac := md2 (hashed_file up f tags (hashed_game_data before script after) cols)).
  exists before, script, after, (cf_put MACP (Stream mac) f1).
  assert (E1 : write_game_data up g ver f = Ok f1).
  { unfold write_game_data. rewrite W. apply store_put; [discriminate|exact HG|rewrite HD; discriminate|reflexivity]. }
  assert (A1 : Agree up f f1) by (apply put_agree; [discriminate|left; reflexivity]).
  assert (N1 : cf_node GD f1 = Some (Stream gd)) by (unfold f1; rewrite node_put by discriminate; rewrite path_eqb_refl; reflexivity).
  assert (G1 : forall c, generate_mac up md2 c f1 = Ok mac).
  { intros c. rewrite (mac_formula up md2 c f1 tags cols before script after (hashable_agree up _ _ _ _ A1 HH) N1 VB VA NC FS).
    unfold mac. do 2 f_equal. symmetry. apply hashed_agree, A1. }
  set (f2 := cf_put MACP (Stream mac) f1).
  assert (A2 : Agree up f1 f2) by (apply put_agree; [discriminate|right; reflexivity]).
  assert (NE : forall a b : string, a <> b -> In a ["GameData"; "MAC"; "Version"]%string -> In b ["GameData"; "MAC"; "Version"]%string ->
                path_eqb up [GameStg; lit a] [GameStg; lit b] = false).
  { intros a b Hab Ha Hb. cbn in Ha, Hb. repeat destruct Ha as [<-|Ha]; repeat destruct Hb as [<-|Hb]; try contradiction; try congruence; reflexivity. }
  assert (NM1 : cf_node MACP f1 = cf_node MACP f).
  { unfold f1. rewrite node_put by discriminate. rewrite NE; [reflexivity|discriminate|cbn; auto|cbn; auto]. }
  assert (E2 : write_mac up mac f1 = Ok f2).
  { unfold write_mac. apply store_put; [discriminate| |rewrite NM1; exact HM|reflexivity]. cbn [removelast].
    unfold f1. rewrite node_put by discriminate. cbn [path_eqb]. rewrite andb_false_r. exact HG. }
  assert (N2 : cf_node GD f2 = Some (Stream gd)).
  { unfold f2. rewrite node_put by discriminate. rewrite NE; [exact N1|discriminate|cbn; auto|cbn; auto]. }
  assert (M2 : cf_node MACP f2 = Some (Stream mac)) by (unfold f2; rewrite node_put by discriminate; rewrite path_eqb_refl; reflexivity).
  assert (Q2 : forall q, ~ same_path up q GD -> ~ same_path up q MACP -> cf_node q f2 = cf_node q f).
  { intros q H1 H2. destruct q as [|x q]; [reflexivity|]. unfold f2, f1. rewrite !node_put by discriminate.
    destruct (path_eqb up (x :: q) MACP) eqn:EM; [destruct H2; apply same_path_eqb, EM|].
    destruct (path_eqb up (x :: q) GD) eqn:EG; [destruct H1; apply same_path_eqb, EG|]. reflexivity. }
  split; [exact W|]. split; [exact EC|]. split; [rewrite E1; cbn [rbind]; rewrite G1; exact E2|]. split; [|split].
  - split; [exact N2|]. split; [exact M2|]. split; [exact Q2|].
    assert (S1 : map fst f1 = map fst f).
    { unfold f1, cf_put. rewrite cf_node_find in HD by discriminate. rewrite HD. apply set_names. }
    unfold f2. destruct (put_names MACP (Stream mac) f1) as [E|[E EE]]; [left|right]; [congruence|].
    split; [|etransitivity; [exact EE|]; f_equal; exact S1]. rewrite <- NM1, cf_node_find by discriminate. exact E.
  - repeat split; try apply (hashable_agree up f1 f2 tags cols A2 (hashable_agree up f f1 tags cols A1 HH)); [| |exact N2|rewrite M2; discriminate].
    + unfold f2, f1. rewrite !node_put by discriminate. cbn [path_eqb]. rewrite !andb_false_r. exact HG.
    + unfold f2, f1. rewrite !node_put by discriminate. rewrite !NE by (discriminate || (cbn; auto)). exact HV.
  - intros c. unfold verify, read_mac, cf_exists, cf_get. rewrite M2.
    rewrite (mac_formula up md2 c f2 tags cols before script after (hashable_agree up f1 f2 tags cols A2 (hashable_agree up f f1 tags cols A1 HH)) N2 VB VA NC FS).
    rewrite <- (hashed_agree up f f2 _ _ _ (agree_trans _ _ _ A1 A2)). fold mac. rewrite bytes_eqb_refl. reflexivity.
Qed.

Lemma changed_trans f f1 f2 gd1 m1 gd2 m2 : only_game_data_changed up f f1 gd1 m1 -> only_game_data_changed up f1 f2 gd2 m2 ->
  only_game_data_changed up f f2 gd2 m2.
Proof.
  intros (A1 & A2 & A3 & A4) (B1 & B2 & B3 & B4). split; [exact B1|]. split; [exact B2|]. split.
  - intros q H1 H2. rewrite B3, A3 by assumption. reflexivity.
  - destruct B4 as [B4|[B4 _]]; [|congruence]. destruct A4 as [A4|[A4 A5]]; [left; congruence|right; split; [exact A4|congruence]].
Qed.

(** ** Locking *)
Definition after_edit (ver : Z) (n : Z) (g : GameData) : GameData := set_gd_beta (beta_stored ver g) (set_locked_counter n g).
Lemma ok_locked n g : GameData_ok (set_locked_counter n g) = GameData_ok g.
Proof. destruct g as [gb gd gc gp gs gt gf be], gt. reflexivity. Qed.
Lemma ok_stored ver g : GDTail_stored (gd_tail g) = gd_tail g -> GameData_stored ver g = set_gd_beta (beta_stored ver g) g.
Proof. intros H. unfold GameData_stored. rewrite H. destruct g. reflexivity. Qed.
Lemma tail_locked n g : GDTail_stored (gd_tail g) = gd_tail g -> GDTail_stored (gd_tail (set_locked_counter n g)) = gd_tail (set_locked_counter n g).
Proof.
  intros H. assert (E : forall x t, GDTail_stored (set_gt_locked x t) = set_gt_locked x (GDTail_stored t)) by (intros x []; reflexivity).
  assert (T : forall t g, gd_tail (set_gd_tail t g) = t) by (intros t []; reflexivity).
  unfold set_locked_counter. rewrite T, E, H. reflexivity.
Qed.
Lemma locked_stored ver n g : GDTail_stored (gd_tail g) = gd_tail g -> GameData_stored ver (set_locked_counter n g) = after_edit ver n g.
Proof. intros H. rewrite ok_stored by (apply tail_locked, H). destruct g. reflexivity. Qed.
Lemma ok_beta b g : GameData_ok (set_gd_beta b g) = GameData_ok g.
Proof. destruct g. reflexivity. Qed.
Lemma after_edit_twice ver n m g : after_edit ver n (after_edit ver m g) = after_edit ver n g.
Proof.
  unfold after_edit. destruct g as [gb gd gc gp gs gt gf be].
  unfold beta_stored. cbn [set_locked_counter set_gd_tail set_gd_beta gd_bg_enable_fss gd_beta gd_bounds gd_tail set_gt_locked].
  assert (E : forall a b c d, (a && b && (a && b && (c || d) || d))%bool = (a && b && (c || d))%bool) by (intros [] [] [] []; reflexivity).
  rewrite E. destruct gt. reflexivity.
Qed.
Lemma counter_after ver n g : locked_counter (after_edit ver n g) = n mod 2 ^ 32.
Proof. destruct g as [gb gd gc gp gs gt gf be], gt. unfold locked_counter, after_edit. cbn [set_locked_counter set_gd_tail set_gd_beta gd_tail set_gt_locked GameData.gt_locked]. apply w32_to_Z_of. Qed.

Definition Inv (c : bool) (ver : u32) tags cols (f : cfile) (g : GameData) : Prop :=
  exists d, editable up f ver tags cols d /\ GameData_read (w32_to_Z ver) c d = Ok g /\ GameData_ok g = true /\ GDTail_stored (gd_tail g) = gd_tail g.
Lemma Inv_read c ver tags cols f g : Inv c ver tags cols f g -> file_read_gamedata up c f = Ok g.
Proof.
  intros (d & HE & HR & _). unfold file_read_gamedata. rewrite (editable_version _ _ _ _ _ HE). cbn [rbind]. unfold read_gamedata, cf_get.
  destruct HE as (_ & _ & HD & _). rewrite HD. exact HR.
Qed.
Lemma write_locked c ver tags cols f g n : Inv c ver tags cols f g -> exists f',
  file_write_gamedata up md2 c (set_locked_counter n g) f = Ok f' /\ Inv c ver tags cols f' (after_edit (w32_to_Z ver) n g) /\
  (exists gd mac, only_game_data_changed up f f' gd mac) /\ (forall c, verify up md2 c f' = Ok VerifyOk).
Proof.
  intros (d & HE & HR & HO & HT). assert (HO' : GameData_ok (set_locked_counter n g) = true) by (rewrite ok_locked; exact HO).
  destruct (rewrite_game_data c _ f ver tags cols d HE HO') as (before & script & after & f' & W & _ & E & HC & HE' & HV).
  exists f'. split; [|split; [|split; [|exact HV]]].
  - unfold file_write_gamedata. rewrite (editable_version _ _ _ _ _ HE). exact E.
  - eexists. split; [exact HE'|]. split; [|split].
    + pose proof (GameData_writes (w32_to_Z ver) _ HO') as W'. rewrite W in W'. injection W' as ->. rewrite GameData_reads by exact HO'. f_equal.
      apply locked_stored, HT.
    + unfold after_edit. rewrite ok_beta. exact HO'.
    + unfold after_edit. pose proof (tail_locked n g HT) as T. destruct g. exact T.
  - eexists. eexists. exact HC.
Qed.
Lemma lock_op_ok c ver tags cols f g o : Inv c ver tags cols f g -> exists f',
  match o with OpLock => file_lock up md2 c f | OpUnlock => file_unlock up md2 c f end = Ok (fst (lock_step o (locked_counter g)), f') /\
  if fst (lock_step o (locked_counter g)) then
    Inv c ver tags cols f' (after_edit (w32_to_Z ver) (locked_counter g + 1) g) /\
    (exists gd mac, only_game_data_changed up f f' gd mac) /\ (forall c, verify up md2 c f' = Ok VerifyOk)
  else f' = f.
Proof.
  intros HI. destruct (write_locked c ver tags cols f g (locked_counter g + 1) HI) as (f' & W & HI' & HC & HV).
  unfold lock_step. cbv zeta. destruct o; unfold file_lock, file_unlock; rewrite (Inv_read _ _ _ _ _ _ HI); cbn [rbind];
    destruct (Z.odd (locked_counter g)); cbn [negb fst]; try (exists f; split; reflexivity); exists f'; rewrite W; cbn [rbind]; auto.
Qed.
Lemma step_counter o c : snd (lock_step o c) = if fst (lock_step o c) then (c + 1) mod 2 ^ 32 else c.
Proof. unfold lock_step. cbv zeta. destruct (match o with OpLock => _ | OpUnlock => _ end); reflexivity. Qed.
Lemma run_locks_ok c ver tags cols os : forall f g, Inv c ver tags cols f g -> exists f' g',
  run_locks up md2 c os f = Ok (fst (lock_history os (locked_counter g)), f') /\ Inv c ver tags cols f' g' /\
  locked_counter g' = snd (lock_history os (locked_counter g)) /\
  if existsb (fun b => b) (fst (lock_history os (locked_counter g))) then
    g' = after_edit (w32_to_Z ver) (snd (lock_history os (locked_counter g))) g /\
    (exists gd mac, only_game_data_changed up f f' gd mac) /\ (forall c, verify up md2 c f' = Ok VerifyOk)
  else f' = f /\ g' = g.
Proof.
  induction os as [|o os IH]; intros f g HI.
  - exists f, g. split; [reflexivity|]. split; [exact HI|]. split; [reflexivity|]. split; reflexivity.
  - destruct (lock_op_ok c ver tags cols f g o HI) as (f1 & E1 & H1). cbn [run_locks]. rewrite E1. cbn [rbind fst snd].
    pose proof (step_counter o (locked_counter g)) as SC. cbn [lock_history]. destruct (lock_step o (locked_counter g)) as [b c1]. cbn [fst snd] in *.
    destruct b.
    + destruct H1 as (HI1 & HC1 & HV1). destruct (IH f1 _ HI1) as (f2 & g2 & E2 & HI2 & HK2 & H2).
      rewrite counter_after, <- SC in E2, HK2, H2. rewrite E2. cbn [rbind fst snd].
      destruct (lock_history os c1) as [bs c2]. cbn [fst snd existsb orb] in *. exists f2, g2. split; [reflexivity|]. split; [exact HI2|]. split; [exact HK2|].
      destruct (existsb (fun b => b) bs) eqn:EB.
      * destruct H2 as (-> & (gd & mac & HC2) & HV2). rewrite after_edit_twice. split; [reflexivity|]. split; [|exact HV2].
        destruct HC1 as (gd1 & mac1 & HC1). exists gd, mac. apply (changed_trans _ _ _ _ _ _ _ HC1 HC2).
      * destruct H2 as [-> ->]. split; [|split; [exact HC1|exact HV1]]. rewrite <- HK2, counter_after. unfold after_edit. f_equal.
        unfold set_locked_counter. do 3 f_equal. apply w32_to_Z_inj. rewrite !w32_to_Z_of. symmetry. apply Z.mod_mod. lia.
    + subst f1 c1. destruct (IH f g HI) as (f2 & g2 & E2 & HI2 & HK2 & H2). rewrite E2. cbn [rbind fst snd].
      destruct (lock_history os (locked_counter g)) as [bs c2]. cbn [fst snd existsb orb] in *. exists f2, g2. auto.
Qed.

Lemma file_inv c f ver tags cols d g : editable up f ver tags cols d -> size_fits (zlen d) -> GameData_read (w32_to_Z ver) c d = Ok g ->
  counters_agree g -> blocks_fit g -> Inv c ver tags cols f g.
Proof. intros HE HS HR HC HB. destruct (read_game_data_ok _ _ _ _ HS HR HC HB) as [H1 H2]. exists d. auto. Qed.
Lemma locks_any c f ver tags cols d g os : editable up f ver tags cols d -> size_fits (zlen d) -> GameData_read (w32_to_Z ver) c d = Ok g ->
  counters_agree g -> blocks_fit g ->
  let changes := fst (lock_history os (locked_counter g)) in
  let counter := snd (lock_history os (locked_counter g)) in
  exists f' g',
    run_locks up md2 c os f = Ok (changes, f') /\ file_is_locked up c f' = Ok (Z.odd counter) /\ file_read_gamedata up c f' = Ok g' /\
    (~ In true changes -> f' = f /\ g' = g) /\
    (In true changes ->
       g' = set_gd_beta (beta_stored (w32_to_Z ver) g) (set_locked_counter counter g) /\
       (exists gd mac, only_game_data_changed up f f' gd mac) /\ forall c, verify up md2 c f' = Ok VerifyOk).
Proof.
  intros HE HS HR HC HB. cbv zeta. destruct (run_locks_ok c ver tags cols os f g (file_inv _ _ _ _ _ _ _ HE HS HR HC HB)) as (f' & g' & E & HI & HK & H).
  exists f', g'. split; [exact E|]. pose proof (Inv_read _ _ _ _ _ _ HI) as HR'. split; [|split; [exact HR'|]].
  - unfold file_is_locked. rewrite HR'. cbn [rbind]. rewrite HK. reflexivity.
  - destruct (existsb (fun b => b) (fst (lock_history os (locked_counter g)))) eqn:EB.
    + apply existsb_exists in EB. destruct EB as (b & Hb & ->). split; [intros Hn; contradiction|]. intros _. exact H.
    + split; [intros _; exact H|]. intros Ht. exfalso. assert (X : existsb (fun b => b) (fst (lock_history os (locked_counter g))) = true).
      { apply existsb_exists. exists true. auto. } congruence.
Qed.

(** ** Importing a script *)
Lemma ok_code s g : GameData_ok g = true -> code_ok (swe_new s) = true -> GameData_ok (GameData_set_code s g) = true.
Proof.
  intros H HC. unfold GameData_ok in *. apply andb_true_iff in H. destruct H as [H1 H2]. unfold GameData_set_code.
  replace (GameData_groups_ok (set_gd_tail (set_gt_code (swe_new s) (gd_tail g)) g)) with (GameData_groups_ok g) by (destruct g; reflexivity).
  rewrite H1. replace (gd_tail (set_gd_tail (set_gt_code (swe_new s) (gd_tail g)) g)) with (set_gt_code (swe_new s) (gd_tail g)) by (destruct g; reflexivity).
  cbn [andb]. generalize (gd_tail g) H2. clear - HC. intros t H. unfold GDTail_ok, GDTail_str in *. rewrite !andb_true_iff in *.
  destruct H as (HA & (((((((B1 & B2) & B3) & B4) & B5) & B6) & B7) & B8)). split; [destruct t; exact HA|].
  repeat split; try exact HC; destruct t; assumption.
Qed.
Lemma code_stored ver s g : GDTail_stored (gd_tail g) = gd_tail g ->
  GameData_stored ver (GameData_set_code s g) = set_gd_beta (beta_stored ver g) (GameData_set_code s g).
Proof.
  intros H. assert (E : forall x t, GDTail_stored (set_gt_code x t) = set_gt_code x (GDTail_stored t)) by (intros x []; reflexivity).
  assert (T : forall t g, gd_tail (set_gd_tail t g) = t) by (intros t []; reflexivity).
  rewrite ok_stored; [destruct g; reflexivity|]. unfold GameData_set_code. rewrite T, E, H. reflexivity.
Qed.
Lemma import_any c s f ver tags cols d g : editable up f ver tags cols d -> size_fits (zlen d) -> GameData_read (w32_to_Z ver) c d = Ok g ->
  counters_agree g -> blocks_fit g -> Forall scalar_value s -> ~ In 0%N s -> size_fits (zlen (utf8_encode s)) ->
  exists f', import_script up md2 c s f = Ok f' /\ (exists gd mac, only_game_data_changed up f f' gd mac) /\
    (forall c', verify up md2 c' f' = Ok VerifyOk) /\
    forall c', extract_script up c' f' = Ok s /\
      file_read_gamedata up c' f' = Ok (set_gd_beta (beta_stored (w32_to_Z ver) g) (GameData_set_code s g)).
Proof.
  intros HE HS HR HC HB S1 S2 S3. destruct (read_game_data_ok _ _ _ _ HS HR HC HB) as [HO HT].
  assert (SF : script_fits (swe_new s)).
  { exists (utf8_encode s). split; [|split; [exact S3|]].
    - intros H. unfold utf8_encode in H. apply in_flat_map in H. destruct H as (ch & Hc & H).
      assert (ch = 0%N); [|subst; contradiction]. assert (V : is_scalar ch = true).
      { apply is_rstring_scalars in S1. unfold is_rstring in S1. rewrite forallb_forall in S1. apply S1, Hc. }
      revert H V. apply utf8_char_nul.
    - symmetry. apply swe_string_of; [exact S1|reflexivity]. }
  assert (HO' : GameData_ok (GameData_set_code s g) = true) by (apply ok_code; [exact HO|apply script_fits_ok, SF]).
  destruct (rewrite_game_data c _ f ver tags cols d HE HO') as (before & script & after & f' & W & _ & E & HCh & HE' & HV).
  exists f'. split; [|split; [|split; [exact HV|]]].
  - unfold import_script. rewrite (editable_version _ _ _ _ _ HE). cbn [rbind]. unfold read_gamedata, cf_get.
    destruct HE as (_ & _ & HD & _). rewrite HD. cbn [rbind]. rewrite HR. exact E.
  - eexists. eexists. exact HCh.
  - assert (R : forall c', file_read_gamedata up c' f' = Ok (set_gd_beta (beta_stored (w32_to_Z ver) g) (GameData_set_code s g))).
    { intros c'. unfold file_read_gamedata. rewrite (editable_version _ _ _ _ _ HE'). cbn [rbind]. unfold read_gamedata, cf_get.
      destruct HE' as (_ & _ & HD & _). rewrite HD. cbn [rbind]. pose proof (GameData_writes (w32_to_Z ver) _ HO') as W'. rewrite W in W'. injection W' as ->.
      rewrite GameData_reads by exact HO'. f_equal. apply code_stored, HT. }
    intros c'. split; [|apply R]. unfold extract_script. rewrite R. destruct g as [gb gd gc gp gs gt gf be], gt. reflexivity.
Qed.
End E.

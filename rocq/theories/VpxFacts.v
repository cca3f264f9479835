(** Proofs about whole tables: the file a table is written to, its authentication code, and reading it back. *)
From Coq Require Import Permutation.
From Verif Require Import Base Text Biff Quantize Common Enums Structs GameItem GameData Image Sound Cfb TableInfo Vpx.
From Verif Require Import BaseFacts TextFacts SpecBiff SpecStructs StructsProps CfbFacts SpecVpx TableInfoFacts MacFacts.

Section V.
Variable up : N -> N.
Local Notation fold_name := (fold_name up).
Local Notation fold_char := (fold_char up).
Local Notation fpath := (fpath up).
Local Notation keys := (keys up).
Local Notation cf_node := (cf_node up).

(** ** Numbered streams *)
Fixpoint numbered_part (prefix : string) (i : N) (ds : list bytes) : cfile :=
  match ds with [] => [] | d :: ds' => (stream_path prefix i, Stream d) :: numbered_part prefix (i + 1) ds' end.

Definition is_digit (c : N) : bool := ((48 <=? c) && (c <=? 57))%N.
Lemma fold_digit c : is_digit c = true -> fold_char c = c.
Proof.
  unfold is_digit, Cfb.fold_char, ascii_upper_char. intros H. replace (c <? 128)%N with true by lia.
  replace ((97 <=? c) && (c <=? 122))%N with false by lia. reflexivity.
Qed.
Lemma fold_dec n : fold_name (dec_text n) = dec_text n.
Proof.
  pose proof (dec_text_digits n) as H. unfold Cfb.fold_name. induction (dec_text n) as [|c s IH]; [reflexivity|].
  inversion H; subst. cbn [map]. rewrite IH by assumption. rewrite fold_digit; [reflexivity|]. unfold is_digit. lia.
Qed.
Lemma fold_app a b : fold_name (a ++ b) = fold_name a ++ fold_name b.
Proof. apply map_app. Qed.
Lemma fpath_stream prefix i : fpath (stream_path prefix i) = [fold_name GameStg; fold_name (lit prefix) ++ dec_text i].
Proof.
  unfold stream_path. change (fpath [GameStg; lit prefix ++ dec_text i]) with [fold_name GameStg; fold_name (lit prefix ++ dec_text i)].
  rewrite fold_app, fold_dec. reflexivity.
Qed.
Lemma keys_numbered prefix : forall ds i k, In k (keys (numbered_part prefix i ds)) ->
  exists j, (i <= j < i + N.of_nat (List.length ds))%N /\ k = fpath (stream_path prefix j).
Proof.
  induction ds as [|d ds IH]; intros i k H; [destruct H|]. destruct H as [<-|H].
  - exists i. cbn [List.length fst]. split; [lia|reflexivity].
  - destruct (IH _ _ H) as (j & Hj & E). exists j. cbn [List.length]. split; [lia|exact E].
Qed.
Lemma numbered_nodup prefix : forall ds i, NoDup (keys (numbered_part prefix i ds)).
Proof.
  induction ds as [|d ds IH]; intros i; [constructor|]. cbn [numbered_part]. change (keys ((?a) :: ?b)) with (fpath (fst a) :: keys b).
  constructor; [|apply IH]. intros H. destruct (keys_numbered _ _ _ _ H) as (j & Hj & E). cbn [fst] in E. rewrite !fpath_stream in E.
  injection E as E. apply app_inv_head in E. apply dec_text_inj in E. lia.
Qed.
Lemma list_ascii_length s : List.length (list_ascii_of_string s) = String.length s.
Proof. induction s as [|a s IH]; [reflexivity|]. cbn. rewrite IH. reflexivity. Qed.
Lemma numbered_valid prefix i : valid_stream_name (lit prefix) = true -> (String.length prefix <= 10)%nat -> (i < 10 ^ 20)%N ->
  valid_stream_name (lit prefix ++ dec_text i) = true.
Proof.
  intros H HL Hi. unfold valid_stream_name in *. apply andb_true_iff in H. destruct H as [_ H].
  pose proof (dec_text_digits i) as HD. pose proof (dec_text_length i 20 Hi ltac:(lia)) as HN.
  apply andb_true_iff. split.
  - assert (G : forall s, Forall (fun c => (c < 65536)%N) s -> zlen (flat_map char_utf16 s) = zlen s).
    { induction 1 as [|c s Hc _ IH]; [reflexivity|]. cbn [flat_map]. rewrite zlen_app, zlen_cons, IH. f_equal.
      unfold char_utf16. cbv zeta. replace (Z.of_N c <? 65536) with true by lia. reflexivity. }
    rewrite G.
    + rewrite zlen_app. unfold zlen. unfold lit. rewrite map_length, list_ascii_length. unfold rstring, uchar in *. lia.
    + apply Forall_app. split; [|eapply Forall_impl; [|exact HD]; cbn; lia]. apply Forall_forall. intros c Hc.
      unfold lit in Hc. apply in_map_iff in Hc. destruct Hc as (a & <- & _). pose proof (N_ascii_bounded a). lia.
  - rewrite forallb_app. apply andb_true_iff. split; [exact H|]. apply forallb_forall. intros c Hc. pose proof (proj1 (Forall_forall _ _) HD c Hc) as Hx. cbn in Hx. unfold uchar in *.
    replace (c =? 47)%N with false by lia. replace (c =? 92)%N with false by lia. replace (c =? 58)%N with false by lia. replace (c =? 33)%N with false by lia. reflexivity.
Qed.
Lemma write_numbered_ok {A} b (w : A -> res bytes) prefix : valid_stream_name (lit prefix) = true -> (String.length prefix <= 10)%nat ->
  forall xs ds i f, Forall2 (fun x d => w x = Ok d) xs ds -> (i + N.of_nat (List.length ds) <= 10 ^ 20)%N ->
  NoDup (keys (f ++ numbered_part prefix i ds)) -> cf_node [GameStg] f = Some Storage ->
  write_numbered up b w prefix i xs f = Ok (f ++ numbered_part prefix i ds).
Proof.
  intros HV HL xs ds i f H. revert i f. induction H as [|x d xs ds Hx HF IH]; intros i f Hi HN HS; cbn [write_numbered numbered_part].
  - rewrite app_nil_r. reflexivity.
  - cbn [List.length] in Hi. rewrite Hx. cbn [numbered_part] in HN.
    replace (f ++ (stream_path prefix i, Stream d) :: numbered_part prefix (i + 1) ds)
      with ((f ++ [(stream_path prefix i, Stream d)]) ++ numbered_part prefix (i + 1) ds) in * by (rewrite <- app_assoc; reflexivity).
    rewrite cf_store_new; [|discriminate| |exact HS|apply numbered_valid; [exact HV|exact HL|lia]].
    + cbn [rbind]. apply IH; [lia|exact HN|]. apply cf_node_app_old; [discriminate|exact HS].
    + rewrite !keys_app, <- app_assoc in HN. apply NoDup_remove_2 in HN. intros Hin. apply HN. apply in_or_app. left. exact Hin.
Qed.
Lemma read_numbered_ok {A} (r : bytes -> res A) prefix f :
  forall xs ds i, Forall2 (fun x d => r d = Ok x) xs ds -> NoDup (keys f) -> (forall e, In e (numbered_part prefix i ds) -> In e f) ->
  read_numbered up r prefix i (List.length xs) f = Ok xs.
Proof.
  intros xs ds i H. revert i. induction H as [|x d xs ds Hx HF IH]; intros i HN HI; cbn [read_numbered List.length]; [reflexivity|].
  unfold cf_get. rewrite (cf_node_in up (stream_path prefix i) (Stream d)); [|discriminate|exact HN|apply HI; left; reflexivity].
  cbn [rbind]. rewrite Hx. cbn [rbind]. rewrite IH; [reflexivity|exact HN|]. intros e He. apply HI. right. exact He.
Qed.

(** ** Keys of different parts are different *)
Definition strip (s : rstring) : rstring := filter (fun c => negb (is_digit c)) s.
Lemma strip_app a b : strip (a ++ b) = strip a ++ strip b.
Proof. apply filter_app. Qed.
Lemma strip_dec i : strip (dec_text i) = [].
Proof.
  pose proof (dec_text_digits i) as HD. induction (dec_text i) as [|c s IH]; [reflexivity|]. inversion HD; subst. unfold strip in *. cbn [filter].
  replace (is_digit c) with true by (unfold is_digit; lia). cbn [negb]. apply IH. assumption.
Qed.
Definition key_class (k : cpath) : list rstring :=
  match k with
  | [a] => [a]
  | [a; b] => if rstring_eqb a (fold_name TableInfoStg) then [a] else [a; strip b]
  | _ => []
  end.
Lemma NoDup_app_disjoint {A} (a b : list A) : NoDup a -> NoDup b -> (forall x, In x a -> ~ In x b) -> NoDup (a ++ b).
Proof.
  intros Ha Hb H. induction Ha as [|x a Hx Ha IH]; [exact Hb|]. cbn [app]. constructor.
  - intros Hin. apply in_app_or in Hin. destruct Hin as [Hin|Hin]; [contradiction|]. apply (H x (or_introl eq_refl) Hin).
  - apply IH. intros y Hy. apply H. right. exact Hy.
Qed.
Lemma NoDup_classes {A C} (cls : A -> C) (parts : list (C * list A)) :
  (forall p, In p parts -> NoDup (snd p) /\ forall x, In x (snd p) -> cls x = fst p) -> NoDup (map fst parts) ->
  NoDup (flat_map snd parts).
Proof.
  induction parts as [|p ps IH]; intros H HN; cbn [flat_map]; [constructor|]. cbn [map] in HN. inversion HN as [|c cs H1 H2]; subst.
  destruct (H p (or_introl eq_refl)) as [Hp1 Hp2]. apply NoDup_app_disjoint; [exact Hp1|apply IH; [intros q Hq; apply H; right; exact Hq|exact H2]|].
  intros x Hx Hin. apply H1. apply in_flat_map in Hin. destruct Hin as (q & Hq & Hxq). apply in_map_iff. exists q. split; [|exact Hq].
  rewrite <- (Hp2 x Hx). symmetry. apply (H q (or_intror Hq)), Hxq.
Qed.
Lemma class_numbered prefix ds i k : strip (fold_name (lit prefix)) = fold_name (lit prefix) ->
  In k (keys (numbered_part prefix i ds)) -> key_class k = [fold_name GameStg; fold_name (lit prefix)].
Proof.
  intros HP H. destruct (keys_numbered _ _ _ _ H) as (j & _ & ->). rewrite fpath_stream. unfold key_class.
  change (rstring_eqb (fold_name GameStg) (fold_name TableInfoStg)) with false. rewrite strip_app, HP, strip_dec, app_nil_r. reflexivity.
Qed.

(** ** The file of a table *)
Record parts : Type := mkParts {
  pt_tags : bytes; pt_info : TableInfo; pt_version : bytes; pt_gamedata : bytes;
  pt_items : list bytes; pt_images : list bytes; pt_sounds : list bytes; pt_fonts : list bytes; pt_collections : list bytes }.
Definition game_stream (n : string) (d : bytes) : cfile := [([GameStg; lit n], Stream d)].
Definition file_parts (p : parts) : list (list rstring * cfile) :=
  let g n := [fold_name GameStg; fold_name (lit n)] in
  [([fold_name GameStg], [([GameStg], Storage)]);
   (g "CustomInfoTags"%string, game_stream "CustomInfoTags" (pt_tags p));
   ([fold_name TableInfoStg], info_part (pt_info p));
   (g "Version"%string, game_stream "Version" (pt_version p));
   (g "GameData"%string, game_stream "GameData" (pt_gamedata p));
   (g "GameItem"%string, numbered_part "GameItem" 0 (pt_items p));
   (g "Image"%string, numbered_part "Image" 0 (pt_images p));
   (g "Sound"%string, numbered_part "Sound" 0 (pt_sounds p));
   (g "Font"%string, numbered_part "Font" 0 (pt_fonts p));
   (g "Collection"%string, numbered_part "Collection" 0 (pt_collections p))].
Definition file_of (p : parts) : cfile := flat_map snd (file_parts p).
Definition mac_part (p : parts) (m : bytes) : list (list rstring * cfile) :=
  file_parts p ++ [([fold_name GameStg; fold_name (lit "MAC")], game_stream "MAC" m)].
Definition full_file (p : parts) (m : bytes) : cfile := flat_map snd (mac_part p m).
Lemma full_file_eq p m : full_file p m = file_of p ++ game_stream "MAC" m.
Proof. unfold full_file, file_of, mac_part. rewrite flat_map_app. cbn [flat_map snd app]. reflexivity. Qed.

Lemma flat_keys {C} (ps : list (C * cfile)) : keys (flat_map snd ps) = flat_map snd (map (fun p => (fst p, keys (snd p))) ps).
Proof. induction ps as [|p ps IH]; [reflexivity|]. cbn [flat_map map snd]. rewrite keys_app, IH. reflexivity. Qed.
Lemma class_one n d k : strip (fold_name (lit n)) = fold_name (lit n) -> In k (keys (game_stream n d)) -> key_class k = [fold_name GameStg; fold_name (lit n)].
Proof.
  intros HP [<-|[]]. change (fpath (fst ([GameStg; lit n], Stream d))) with [fold_name GameStg; fold_name (lit n)].
  unfold key_class. change (rstring_eqb (fold_name GameStg) (fold_name TableInfoStg)) with false. rewrite HP. reflexivity.
Qed.
Lemma one_nodup n d : NoDup (keys (game_stream n d)).
Proof. constructor; [intros []|constructor]. Qed.
Lemma class_info t k : In k (keys (info_part t)) -> key_class k = [fold_name TableInfoStg].
Proof.
  intros [<-|H]; [reflexivity|]. change (map _ (info_file ?a)) with (keys (info_file a)) in H. rewrite keys_info in H.
  apply in_map_iff in H. destruct H as (e & <- & _). unfold key_class. rewrite rstring_eqb_refl. reflexivity.
Qed.
Lemma full_nodup p m : info_fits up (pt_info p) -> NoDup (keys (full_file p m)).
Proof.
  intros HI. unfold full_file. rewrite flat_keys. apply (NoDup_classes key_class).
  - intros q Hq. apply in_map_iff in Hq. destruct Hq as (e & <- & He). cbn [fst snd].
    unfold mac_part, file_parts in He. cbv zeta in He. cbn [app In] in He.
    repeat (destruct He as [<-|He]; [cbn [fst snd]|]); [..|destruct He];
      first [split; [apply one_nodup|intros k; apply class_one; reflexivity]
            |split; [apply numbered_nodup|intros k; apply class_numbered; reflexivity]
            |idtac].
    + split; [constructor; [intros []|constructor]|]. intros k [<-|[]]. reflexivity.
    + split; [apply info_part_nodup, HI|apply class_info].
  - rewrite map_map. cbn [fst]. unfold mac_part, file_parts. cbv zeta. cbn [app map fst].
    clear. assert (E : forall l : list (list rstring), (fix nd l := match l with [] => true | x :: l' => negb (existsb (fun y => if list_eq_dec (list_eq_dec N.eq_dec) x y then true else false) l') && nd l' end) l = true -> NoDup l).
    { induction l as [|x l IH]; intros H; [constructor|]. apply andb_true_iff in H. destruct H as [H1 H2]. constructor; [|apply IH, H2].
      intros Hin. apply negb_true_iff in H1. apply Bool.not_true_iff_false in H1. apply H1. apply existsb_exists. exists x. split; [exact Hin|].
      destruct (list_eq_dec (list_eq_dec N.eq_dec) x x); congruence. }
    apply E. vm_compute. reflexivity.
Qed.
Lemma file_nodup p : info_fits up (pt_info p) -> NoDup (keys (file_of p)).
Proof. intros H. pose proof (full_nodup p [] H) as HN. rewrite full_file_eq, keys_app in HN. apply NoDup_app_l in HN. exact HN. Qed.

(** ** Writing *)
(** The bytes of the streams of a table. *)
Definition Encoded (v : VPX) (p : parts) : Prop :=
  CustomInfoTags_write (vpx_custominfotags v) = Ok (pt_tags p) /\ pt_info p = vpx_info v /\ pt_version p = w32_bytes (vpx_version v) /\
  GameData_write (w32_to_Z (vpx_version v)) (vpx_gamedata v) = Ok (pt_gamedata p) /\
  Forall2 (fun x d => gameitem_write x = Ok d) (vpx_gameitems v) (pt_items p) /\
  Forall2 (fun x d => ImageData_write x = Ok d) (vpx_images v) (pt_images p) /\
  Forall2 (fun x d => Sound_write (w32_to_Z (vpx_version v)) x = Ok d) (vpx_sounds v) (pt_sounds p) /\
  Forall2 (fun x d => FontData_write x = Ok d) (vpx_fonts v) (pt_fonts p) /\
  Forall2 (fun x d => Collection_write x = Ok d) (vpx_collections v) (pt_collections p).
Definition small {A} (l : list A) : Prop := (N.of_nat (List.length l) <= 10 ^ 20)%N.
Definition few_parts (p : parts) : Prop :=
  small (pt_items p) /\ small (pt_images p) /\ small (pt_sounds p) /\ small (pt_fonts p) /\ small (pt_collections p).

Lemma store_game n d f : cf_node [GameStg] f = Some Storage -> NoDup (keys (f ++ game_stream n d)) -> valid_stream_name (lit n) = true ->
  cf_store up true [GameStg; lit n] (Ok d) f = Ok (f ++ game_stream n d).
Proof.
  intros HS HN HV. apply cf_store_new; [discriminate| |exact HS|exact HV].
  rewrite keys_app in HN. apply NoDup_remove_2 in HN. rewrite app_nil_r in HN. exact HN.
Qed.
Lemma nodup_prefix f g : NoDup (keys (f ++ g)) -> NoDup (keys f).
Proof. rewrite keys_app. apply NoDup_app_l. Qed.

Lemma write_vpx_ok md2 checked v p : Encoded v p -> few_parts p -> info_fits up (vpx_info v) ->
  write_vpx up md2 checked v [] = (m <~ generate_mac up md2 checked (file_of p) ;; Ok (full_file p m)).
Proof.
  intros (E1 & E2 & E3 & E4 & E5 & E6 & E7 & E8 & E9) (S1 & S2 & S3 & S4 & S5) HI. rewrite <- E2 in HI.
  pose proof (full_nodup p) as HN. set (full := file_of p) in *.
  set (f0 := [([GameStg], Storage)] : cfile).
  set (f1 := f0 ++ game_stream "CustomInfoTags" (pt_tags p)).
  set (f2 := f1 ++ info_part (pt_info p)). set (f3 := f2 ++ game_stream "Version" (pt_version p)).
  set (f4 := f3 ++ game_stream "GameData" (pt_gamedata p)). set (f5 := f4 ++ numbered_part "GameItem" 0 (pt_items p)).
  set (f6 := f5 ++ numbered_part "Image" 0 (pt_images p)). set (f7 := f6 ++ numbered_part "Sound" 0 (pt_sounds p)).
  set (f8 := f7 ++ numbered_part "Font" 0 (pt_fonts p)). set (f9 := f8 ++ numbered_part "Collection" 0 (pt_collections p)).
  assert (EF : full = f9).
  { unfold full, f9, f8, f7, f6, f5, f4, f3, f2, f1, f0, file_of, file_parts. cbv zeta. cbn [flat_map snd]. rewrite app_nil_r, <- !app_assoc. reflexivity. }
  assert (N9 : NoDup (keys f9)) by (rewrite <- EF; apply file_nodup, HI).
  assert (N8 : NoDup (keys f8)) by (eapply nodup_prefix; exact N9). assert (N7 : NoDup (keys f7)) by (eapply nodup_prefix; exact N8).
  assert (N6 : NoDup (keys f6)) by (eapply nodup_prefix; exact N7). assert (N5 : NoDup (keys f5)) by (eapply nodup_prefix; exact N6).
  assert (N4 : NoDup (keys f4)) by (eapply nodup_prefix; exact N5). assert (N3 : NoDup (keys f3)) by (eapply nodup_prefix; exact N4).
  assert (N2 : NoDup (keys f2)) by (eapply nodup_prefix; exact N3). assert (N1 : NoDup (keys f1)) by (eapply nodup_prefix; exact N2).
  assert (G0 : cf_node [GameStg] f0 = Some Storage) by (unfold f0, Cfb.cf_node, cf_find; rewrite path_eqb_refl; reflexivity).
  assert (G1 : cf_node [GameStg] f1 = Some Storage) by (apply cf_node_app_old; [discriminate|exact G0]).
  assert (G2 : cf_node [GameStg] f2 = Some Storage) by (apply cf_node_app_old; [discriminate|exact G1]).
  assert (G3 : cf_node [GameStg] f3 = Some Storage) by (apply cf_node_app_old; [discriminate|exact G2]).
  assert (G4 : cf_node [GameStg] f4 = Some Storage) by (apply cf_node_app_old; [discriminate|exact G3]).
  assert (G5 : cf_node [GameStg] f5 = Some Storage) by (apply cf_node_app_old; [discriminate|exact G4]).
  assert (G6 : cf_node [GameStg] f6 = Some Storage) by (apply cf_node_app_old; [discriminate|exact G5]).
  assert (G7 : cf_node [GameStg] f7 = Some Storage) by (apply cf_node_app_old; [discriminate|exact G6]).
  assert (G8 : cf_node [GameStg] f8 = Some Storage) by (apply cf_node_app_old; [discriminate|exact G7]).
  assert (G9 : cf_node [GameStg] f9 = Some Storage) by (apply cf_node_app_old; [discriminate|exact G8]).
  unfold write_vpx. change (cf_create_storage up [GameStg] []) with (Ok f0). cbn [rbind].
  unfold write_custominfotags. rewrite E1. cbn [rbind]. rewrite store_game by (assumption || reflexivity). fold f1. cbn [rbind].
  rewrite <- E2, write_tableinfo_ok by assumption. fold f2. cbn [rbind].
  unfold write_version. rewrite <- E3, store_game by (assumption || reflexivity). fold f3. cbn [rbind].
  unfold write_game_data. rewrite E4, store_game by (assumption || reflexivity). fold f4. cbn [rbind].
  unfold small in *.
  erewrite write_numbered_ok; [|reflexivity|cbn; lia|exact E5|lia|exact N5|exact G4]. fold f5. cbn [rbind].
  erewrite write_numbered_ok; [|reflexivity|cbn; lia|exact E6|lia|exact N6|exact G5]. fold f6. cbn [rbind].
  erewrite write_numbered_ok; [|reflexivity|cbn; lia|exact E7|lia|exact N7|exact G6]. fold f7. cbn [rbind].
  erewrite write_numbered_ok; [|reflexivity|cbn; lia|exact E8|lia|exact N8|exact G7]. fold f8. cbn [rbind].
  erewrite write_numbered_ok; [|reflexivity|cbn; lia|exact E9|lia|exact N9|exact G8]. fold f9. cbn [rbind].
  rewrite EF. destruct (generate_mac up md2 checked f9) as [m|e]; [|reflexivity]. cbn [rbind]. unfold write_mac.
  rewrite full_file_eq. fold full. rewrite EF. apply store_game; [exact G9| |reflexivity].
  specialize (HN m HI). rewrite full_file_eq in HN. fold full in HN. rewrite EF in HN. exact HN.
Qed.
End V.

(** The JSON forms of materials, render probes, collections, the table information and the indices are read back. *)
From Verif Require Import BaseFacts Base Text TextFacts Biff Common Enums StructMaterial StructRenderProbe Structs Image Sound SoundFacts TableInfo ExpandedAssets SpecAssets AssetFacts
  JsonFloat SpecJson Json SpecJsonRecords JsonFacts JsonItems JsonItemsFacts JsonStructs SpecJsonStructs.

Ltac struct lib := record lib ltac:(item_more lib).

Section Facts.
Context {L : json_lib} (lib : lib_ok L).
Lemma restores_Material m : Material_finite m -> restores jc_Material m.
Proof. intros (? & ? & ? & ? & ? & ? & ?). struct lib. destruct m; reflexivity. Qed.
Lemma restores_SaveMaterial m : SaveMaterial_finite m -> restores jc_SaveMaterial m.
Proof. intros (? & ? & ? & ?). struct lib. destruct m; reflexivity. Qed.
Lemma restores_SavePhysicsMaterial m : restores jc_SavePhysicsMaterial m.
Proof. struct lib. destruct m; reflexivity. Qed.
Lemma restores_RenderProbe p : RenderProbe_finite p -> restores jc_RenderProbe p.
Proof.
  intros H. unfold RenderProbe_finite in H. struct lib. destruct p as [[] [|b d]]; reflexivity.
Qed.
Lemma restores_Collection c : restores jc_Collection c.
Proof. struct lib. destruct c; reflexivity. Qed.
Lemma restores_FontDataJson f : restores jc_FontDataJson f.
Proof. struct lib. destruct f; reflexivity. Qed.
Lemma restores_ImageDataJson i : for_some finite (aj_alpha_test_value i) -> restores jc_ImageDataJson i.
Proof. intros H. struct lib. destruct i; reflexivity. Qed.
Lemma restores_default {A} (d x : A) c : restores c x -> restores (jc_default d c) x.
Proof. intros H. exact H. Qed.
Lemma restores_SoundDataJson s : restores jc_SoundDataJson s.
Proof.
  record lib ltac:(fun _ => lazymatch goal with
    | |- restores (jc_default _ _) _ => apply restores_default, restores_string
    | _ => let t := item_more lib in t tt end).
  destruct s; reflexivity.
Qed.

(** ** Maps *)
Lemma map_insert_new {A} (k : rstring) (v : A) : forall m, ~ In k (map fst m) -> map_insert k v m = m ++ [(k, v)].
Proof.
  induction m as [|[q e] m IH]; [reflexivity|]. cbn [map fst map_insert app]. intros H. destruct (rstring_eqb k q) eqn:E.
  - apply rstring_eqb_eq in E. exfalso. apply H. left. exact (eq_sym E).
  - f_equal. apply IH. intros I. apply H. right. exact I.
Qed.
Lemma key_back s : is_rstring s = true -> utf8_decode (list_byte_of_string (key_of s)) = Some s.
Proof. intros H. unfold key_of. rewrite list_byte_of_string_of_list_byte. apply utf8_decode_encode. exact H. Qed.
Lemma read_map_all : forall l m, NoDup (map fst m ++ map fst l) -> Forall (fun e => is_rstring (fst e) = true) l ->
  read_map (map (fun e => (key_of (fst e), Jstr (snd e))) l) m = Ok (m ++ l).
Proof.
  induction l as [|[k v] l IH]; intros m N H.
  - cbn. rewrite app_nil_r. reflexivity.
  - inversion H as [|? ? Hk Hl]; subst. cbn [map fst snd read_map] in *. rewrite (key_back _ Hk). cbn [jc_of jc_string rbind].
    rewrite map_insert_new.
    + rewrite IH; [rewrite <- app_assoc; reflexivity | | exact Hl]. rewrite map_app, <- app_assoc. exact N.
    + intros I. apply NoDup_remove_2 in N. apply N. apply in_or_app. left. exact I.
Qed.
Lemma restores_map m : NoDup (map fst m) -> Forall (fun e => is_rstring (fst e) = true) m -> restores jc_map m.
Proof. intros N H. unfold restores. cbn [jc_map jc_to jc_of fields_of rbind]. exact (read_map_all m [] N H). Qed.
Lemma json_TableInfo t tags : info_is_map t -> jc_of jc_TableInfo (jc_to jc_TableInfo (t, tags)) = Ok (set_ti_screenshot None t, tags).
Proof. intros (N & H). record lib ltac:(fun _ => apply restores_map; assumption). destruct t; reflexivity. Qed.

(** ** Entries of the indices *)
Lemma json_sound s : (j <~ jc_of jc_SoundDataJson (jc_to jc_SoundDataJson (SoundDataJson_of s)) ;; Ok (SoundDataJson_to j)) = Ok (sound_entry s).
Proof. rewrite restores_SoundDataJson. destruct s; reflexivity. Qed.
Lemma json_font f : (j <~ jc_of jc_FontDataJson (jc_to jc_FontDataJson (FontDataJson_of f)) ;; Ok (FontDataJson_to j)) = Ok (font_entry f).
Proof. rewrite restores_FontDataJson. destruct f; reflexivity. Qed.
Lemma json_image v : image_regular v ->
  (j <~ jc_of jc_ImageDataJson (jc_to jc_ImageDataJson (ImageDataJson_of v)) ;; Ok (ImageDataJson_to j (im_width v) (im_height v) (im_bits v))) = Ok (image_entry v).
Proof.
  intros (M & A & J). rewrite restores_ImageDataJson.
  2: { unfold ImageDataJson_of. destruct (im_jpeg v); cbn [aj_alpha_test_value]; destruct (w32_eqb _ _); first [exact I | exact A]. }
  cbn [rbind]. f_equal.
  assert (E : forall w h bits, ImageDataJson_to (ImageDataJson_of v) w h bits = ImageDataJson_to (index_image (fun _ _ => None) None v) w h bits).
  { intros. unfold index_image. destruct (stored_size _ _ v). reflexivity. }
  rewrite E, (entry_restored _ v None _ _ _ M _ eq_refl). unfold image_entry.
  assert (X : negb (eq_ignore_ascii_case (ImageData_ext v) (lit "bmp")) && negb (ImageData_is_link v) = match im_jpeg v with Some _ => true | None => false end).
  { destruct (im_jpeg v) as [p|].
    - apply andb_true_intro. split; apply negb_true_iff.
      + destruct (eq_ignore_ascii_case _ _) eqn:B; [|reflexivity]. apply bmp_iff in B. discriminate (proj2 J (or_intror B)).
      + destruct (ImageData_is_link v) eqn:B; [|reflexivity]. apply is_link_iff in B. discriminate (proj2 J (or_introl B)).
    - destruct (proj1 J eq_refl) as [B|B].
      + apply is_link_iff in B. rewrite B, andb_false_r. reflexivity.
      + apply bmp_iff in B. unfold ImageData_ext. rewrite B. reflexivity. }
  rewrite X. destruct v as [? ? ? ? ? ? ? ? ? [p|] ? ?]; reflexivity.
Qed.

(** ** Edited files *)
Lemma loose_Material : loose struct_keys (jc_Material (L := L)). Proof. loose. Qed.
Lemma loose_SaveMaterial : loose struct_keys (jc_SaveMaterial (L := L)). Proof. loose. Qed.
Lemma loose_SavePhysicsMaterial : loose struct_keys (jc_SavePhysicsMaterial (L := L)). Proof. loose. Qed.
Lemma loose_RenderProbe : loose struct_keys (jc_RenderProbe (L := L)). Proof. loose. Qed.
Lemma loose_Collection : loose struct_keys (jc_Collection (L := L)). Proof. loose. Qed.
Lemma loose_TableInfo : loose struct_keys (jc_TableInfo (L := L)). Proof. loose. Qed.
Lemma loose_SoundDataJson : loose struct_keys (jc_SoundDataJson (L := L)). Proof. loose. Qed.
Lemma loose_ImageDataJson : loose struct_keys (jc_ImageDataJson (L := L)). Proof. loose. Qed.
Lemma loose_FontDataJson : loose struct_keys (jc_FontDataJson (L := L)). Proof. loose. Qed.
End Facts.

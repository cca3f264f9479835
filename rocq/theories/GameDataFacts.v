(** Facts about game data: what is written, what is read from it, termination, and what reading yields. *)
From Verif Require Import Base Text Biff Quantize Common Enums ItemBase StructMaterial StructRenderProbe Structs.
From Verif Require Import GDBounds GDDesktop GDCabinet GDPhysics GDScene GameData.
From Verif Require Import BaseFacts TextFacts BiffFacts CommonFacts TermFacts QuantizeFacts EnumsFacts ItemBaseFacts.
From Verif Require Import StructBaseFacts StructMaterialFacts StructRenderProbeFacts StructsFacts.
From Verif Require Import GDBoundsFacts GDDesktopFacts GDCabinetFacts GDPhysicsFacts GDSceneFacts.

(** ** Pieces of the tail *)
Lemma ArmH_data_then {S A} (m : S -> bytes -> rd_M A) (k : S -> A -> S) d x s :
  (forall r, m s d r = Ok (x, r)) ->
  ArmH (fun s => d <- get_record_data false ;; x <- m s d ;; rret (k s x)) (zlen d) d s (k s x).
Proof.
  intros H pre rest t w c Hr. pose proof (ArmH_data (fun (_ : bytes) d => d) d [] pre rest t w c Hr) as E.
  cbv beta in E. unfold rbindM in *. destruct (get_record_data false _) as [[y r]|]; [|discriminate].
  unfold rret in E. injection E as -> ->. rewrite H. reflexivity.
Qed.
Lemma nested_reads {A} (m : rd_M A) b x : reads_as m b x -> forall r, nested m b r = Ok (x, r).
Proof. intros H r. unfold nested. destruct (H (r_checked r)) as [r' E]. rewrite E. reflexivity. Qed.
Lemma cursor_gets {A} (m : cu_M A) p x : CGets m p x -> forall r, cursor m p r = Ok (x, r).
Proof. intros H r. unfold cursor. specialize (H []). rewrite app_nil_r in H. rewrite H. reflexivity. Qed.

Definition Material_bytes (v : Material) : bytes := enc (Material_recs v ++ [endb]).
Lemma Material_writes v : Material_ok v = true -> run_writer (Material_write v) = Ok (Material_bytes v).
Proof. intros H. apply run_wapp; [apply Material_wapp, H|unfold Material_write; closes]. Qed.
Lemma Material_reads v : Material_ok v = true -> reads_as Material_read (Material_bytes v) v.
Proof. intros H. apply read_arms_reads, Material_steps, H. Qed.

Definition code_bytes (s : StringWithEncoding) : bytes := match swe_to_bytes s with Ok d => d | Fail _ => [] end.
Definition code_ok (s : StringWithEncoding) : bool :=
  swe_canonical s && forallb (fun c => negb (is_nul c)) (code_bytes s) && fits (zlen (code_bytes s)).
Lemma code_arm s (k : GDTail -> StringWithEncoding -> GDTail) g : code_ok s = true ->
  ArmH (fun v => n <- get_u32_no_remaining_update ;; x <- get_str_with_encoding_no_remaining_update (w32_to_Z n) ;; rret (k v x))
    0 (lp_bytes (code_bytes s)) g (k g s).
Proof.
  intros H. unfold code_ok in H. split_ok H. destruct (swe_value_roundtrip s ltac:(assumption)) as (d & E1 & E2).
  unfold code_bytes in *. rewrite E1 in *. intros pre rest t w c _. unfold lp_bytes. rewrite <- app_assoc.
  at_step get_u32_nru_at. unfold get_str_with_encoding_no_remaining_update.
  assert (Hz : w32_to_Z (Z_to_w32 (zlen d)) = zlen d).
  { unfold fits in *. pose proof (zlen_nonneg d). rewrite w32_to_Z_small; lia. }
  rewrite Hz. erewrite bindM_ok. 2:{ erewrite bindM_ok by (apply scan_at; [reflexivity|assumption]). unfold rret. reflexivity. }
  unfold rret. rewrite E2, <- app_assoc. reflexivity.
Qed.
Lemma wapp_code s : code_ok s = true -> wapp (write_tagged_string_with_encoding_no_size "CODE" s) (enc_rec (R0 "CODE" (lp_bytes (code_bytes s)))).
Proof.
  intros H. unfold code_ok in H. split_ok H. apply wapp_tagged0; [reflexivity|].
  destruct (swe_value_roundtrip s ltac:(assumption)) as (d & E1 & E2). unfold code_bytes in *. rewrite E1 in *.
  unfold write_string_with_encoding, wlift. rewrite E1. apply wbody_lp. assumption.
Qed.

(** lists behind an option, with one record for each element *)
Definition olist {A} (o : option (list A)) : list A := match o with Some l => l | None => [] end.
Definition opt_of {A} (l : list A) : option (list A) := match l with [] => None | _ => Some l end.
Lemma opt_push_of {A} (l : list A) x : opt_push (opt_of l) x = opt_of (l ++ [x]).
Proof. destruct l; reflexivity. Qed.
Lemma wapp_optlist {A} (o : option (list A)) (f : A -> wr_M) (g : A -> rec) :
  (forall x, In x (olist o) -> wapp (f x) (enc_rec (g x))) ->
  wapp (wopt o (fun l => wfor l f)) (enc (map g (olist o))).
Proof. destruct o as [l|]; intros H; cbn [wopt olist] in *; [apply wapp_for, H|apply wapp_wskip]. Qed.

(** ** The tail *)
Definition GDTail_recs (v : GDTail) : list rec :=
  R "MASI" (w32_bytes (gt_materials_size v)) ::
  R "MATE" (flat_map SaveMaterial_bytes (gt_materials_old v)) ::
  orec (gt_materials_physics_old v) (fun l => R "PHMA" (flat_map SavePhysicsMaterial_bytes l)) ++
  map (fun x => R "MATR" (Material_bytes x)) (olist (gt_materials v)) ++
  map (fun x => R "RPRB" (RenderProbeG_bytes x)) (olist (gt_render_probes v)) ++
  R "SEDT" (w32_bytes (gt_gameitems_size v)) ::
  R "SSND" (w32_bytes (gt_sounds_size v)) ::
  R "SIMG" (w32_bytes (gt_images_size v)) ::
  R "SFNT" (w32_bytes (gt_fonts_size v)) ::
  R "SCOL" (w32_bytes (gt_collections_size v)) ::
  R "NAME" (wstring_bytes (gt_name v)) ::
  R "CCUS" (write_colors (gt_custom_colors v)) ::
  orec (gt_protection_data v) (fun d => R "SECB" d) ++
  R0 "CODE" (lp_bytes (code_bytes (gt_code v))) ::
  orec (gt_locked v) (fun x => R "TLCK" (w32_bytes x)) ++ [].
(** counters *)
Definition GDTail_sizes (v : GDTail) : bool :=
  (w32_to_Z (gt_materials_size v) =? zlen (gt_materials_old v)) &&
  opt_ok (fun l => w32_to_Z (gt_materials_size v) =? zlen l) (gt_materials_physics_old v).
(** lengths *)
Definition GDTail_fits (v : GDTail) : bool :=
  data_ok (flat_map SaveMaterial_bytes (gt_materials_old v)) &&
  opt_ok (fun l => data_ok (flat_map SavePhysicsMaterial_bytes l)) (gt_materials_physics_old v) &&
  forallb (fun x => data_ok (Material_bytes x)) (olist (gt_materials v)) &&
  forallb (fun x => data_ok (RenderProbeG_bytes x)) (olist (gt_render_probes v)).
(** strings *)
Definition GDTail_str (v : GDTail) : bool :=
  forallb SaveMaterial_ok (gt_materials_old v) &&
  opt_ok (forallb SavePhysicsMaterial_ok) (gt_materials_physics_old v) &&
  forallb Material_ok (olist (gt_materials v)) &&
  forallb RenderProbeG_ok (olist (gt_render_probes v)) &&
  wstr_ok (gt_name v) && (zlen (gt_custom_colors v) =? 16) && opt_ok data_ok (gt_protection_data v) && code_ok (gt_code v).
Definition GDTail_ok (v : GDTail) : bool := GDTail_sizes v && GDTail_fits v && GDTail_str v.
(** An empty list of materials or probes is stored like no list at all. *)
Definition GDTail_stored (v : GDTail) : GDTail :=
  set_gt_materials (opt_of (olist (gt_materials v))) (set_gt_render_probes (opt_of (olist (gt_render_probes v))) v).

Lemma colors_gets l : zlen l = 16 -> CGets read_colors (write_colors l) l.
Proof.
  intros H. unfold read_colors. rewrite <- (app_nil_r (write_colors l)).
  eapply CGets_bind with (x := map (fun c => Z_to_w32 (Color_to_win_color c)) l).
  - replace 16%nat with (List.length (map (fun c => Z_to_w32 (Color_to_win_color c)) l)) by (rewrite map_length; unfold zlen in H; lia).
    replace (write_colors l) with (flat_map w32_bytes (map (fun c => Z_to_w32 (Color_to_win_color c)) l)).
    + apply CGets_repeat. intros; apply CGets_32.
    + unfold write_colors. rewrite !flat_map_concat_map, map_map. reflexivity.
  - apply CGets_end. rewrite map_map. rewrite <- (map_id l) at 2. apply map_ext. intros c. apply color_of_win.
Qed.
Lemma zlen_colors l : zlen l = 16 -> zlen (write_colors l) = 64.
Proof. intros H. unfold write_colors. rewrite (zlen_flat_map win_color_bytes 4), H by (intros; reflexivity). reflexivity. Qed.

Ltac split_all := repeat match goal with H : (_ && _) = true |- _ => apply andb_true_iff in H; destruct H end.
Ltac in_all x := match goal with Hx : In x ?l, E : forallb ?f ?l = true |- _ => exact (proj1 (forallb_forall _ _) E x Hx) end.
Lemma GDTail_steps v : GDTail_ok v = true -> Steps (dispatch GDTail_arms) GDTail_default (GDTail_recs v) (GDTail_stored v).
Proof.
  intros H. unfold GDTail_ok, GDTail_sizes, GDTail_fits, GDTail_str in H. split_all. eapply Steps_eq.
  - unfold GDTail_recs. srec.
    eapply S_rec; [reflexivity|apply size_ok_data; assumption|reflexivity| |].
    { apply (ArmH_data_then (fun s d => cursor (cu_repeat (Z.to_nat (w32_to_Z (gt_materials_size s))) SaveMaterial_read) d) (fun s x => set_gt_materials_old x s)).
      apply cursor_gets. cbn [gt_materials_size set_gt_materials_size].
      match goal with E : (w32_to_Z (gt_materials_size v) =? zlen (gt_materials_old v)) = true |- _ => apply Z.eqb_eq in E; rewrite E end.
      unfold zlen at 1. rewrite Nat2Z.id. apply CGets_repeat. intros x Hx. apply SaveMaterial_gets. in_all x. }
    cbv beta.
    eapply (S_opt set_gt_materials_physics_old gt_materials_physics_old); [intros []; reflexivity|reflexivity|reflexivity| |reflexivity| |].
    { intros x E. rewrite E in *. cbn [opt_ok] in *. apply size_ok_data; assumption. }
    { intros l E. rewrite E in *. cbn [opt_ok] in *.
      apply (ArmH_data_then (fun s d => cursor (cu_repeat (Z.to_nat (w32_to_Z (gt_materials_size s))) SavePhysicsMaterial_read) d) (fun s x => set_gt_materials_physics_old (Some x) s)).
      apply cursor_gets. cbn [gt_materials_size set_gt_materials_size set_gt_materials_old].
      match goal with E : (w32_to_Z (gt_materials_size v) =? zlen l) = true |- _ => apply Z.eqb_eq in E; rewrite E end.
      unfold zlen at 1. rewrite Nat2Z.id. apply CGets_repeat. intros x Hx. apply SavePhysicsMaterial_gets. in_all x. }
    cbv beta.
    match goal with |- Steps _ ?st _ _ => apply (Steps_list _ (olist (gt_materials v)) _ (fun l => set_gt_materials (opt_of l) st)); [reflexivity| |] end.
    { intros done x Hx. rewrite <- opt_push_of. eapply S_rec; [reflexivity|apply size_ok_data; in_all x|reflexivity| |constructor].
      eapply ArmH_eq; [apply (ArmH_data_then (fun s d => nested Material_read d) (fun s x => set_gt_materials (opt_push (gt_materials s) x) s))|reflexivity].
      apply nested_reads, Material_reads. in_all x. }
    match goal with |- Steps _ ?st _ _ => apply (Steps_list _ (olist (gt_render_probes v)) _ (fun l => set_gt_render_probes (opt_of l) st)); [reflexivity| |] end.
    { intros done x Hx. rewrite <- opt_push_of. eapply S_rec; [reflexivity|apply size_ok_data; in_all x|reflexivity| |constructor].
      eapply ArmH_eq; [apply (ArmH_data_then (fun s d => nested RenderProbeG_read d) (fun s x => set_gt_render_probes (opt_push (gt_render_probes s) x) s))|reflexivity].
      apply nested_reads, RenderProbeG_reads. in_all x. }
    srec. srec. srec. srec. srec. srec.
    assert (HC : zlen (gt_custom_colors v) = 16) by lia.
    eapply S_rec; [reflexivity|rewrite zlen_colors by exact HC; reflexivity|reflexivity| |].
    { apply (ArmH_data_then (fun s d => cursor read_colors d) (fun s x => set_gt_custom_colors x s)). apply cursor_gets, colors_gets, HC. }
    cbv beta. sopt_data set_gt_protection_data gt_protection_data.
    eapply S_rec0; [reflexivity|reflexivity|apply (code_arm (gt_code v) (fun s x => set_gt_code x s)); assumption|]. cbv beta.
    sopt set_gt_locked gt_locked. constructor.
  - destruct v. reflexivity.
Qed.
Lemma GDTail_wapp v : GDTail_ok v = true -> wapp (GDTail_write v) (enc (GDTail_recs v ++ [endb])).
Proof.
  intros H. unfold GDTail_ok, GDTail_sizes, GDTail_fits, GDTail_str in H. split_all. unfold GDTail_write, GDTail_recs. recs_norm.
  wrec. apply wapp_cons.
  { rewrite (concat_res_ok _ SaveMaterial_bytes) by (intros x Hx; apply SaveMaterial_writes; in_all x). cbn [wlift]. apply wapp_data; [reflexivity|assumption]. }
  apply wapp_app.
  { apply wapp_orec. intros l E. rewrite E in *. cbn [opt_ok] in *.
    rewrite (concat_res_ok _ SavePhysicsMaterial_bytes) by (intros x Hx; apply SavePhysicsMaterial_writes; in_all x). apply wapp_data; [reflexivity|assumption]. }
  apply wapp_app.
  { apply wapp_optlist. intros x Hx. rewrite Material_writes by (in_all x). apply wapp_data; [reflexivity|in_all x]. }
  apply wapp_app.
  { apply wapp_optlist. intros x Hx. rewrite RenderProbeG_writes by (in_all x). apply wapp_data; [reflexivity|in_all x]. }
  wrec. wrec. wrec. wrec. wrec. wrec.
  apply wapp_cons. { apply wapp_data; [reflexivity|]. unfold data_ok, fits. rewrite zlen_colors by lia. reflexivity. }
  apply wapp_app. { apply wapp_orec. intros d E. rewrite E in *. apply wapp_data; [reflexivity|assumption]. }
  apply wapp_cons; [apply wapp_code; assumption|]. woptrec. apply wapp_close.
Qed.
Lemma GDTail_tags v : forallb (fun r => tag_known GDTail_arms (rec_tag r)) (GDTail_recs v) = true.
Proof.
  assert (M : forall A (l : list A) t p rs, tag_known GDTail_arms t = true ->
    forallb (fun r => tag_known GDTail_arms (rec_tag r)) rs = true ->
    forallb (fun r => tag_known GDTail_arms (rec_tag r)) (map (fun x : A => R t (p x)) l ++ rs) = true).
  { intros A l t p rs Ht Hrs. induction l; [exact Hrs|]. cbn [map app]. apply tags_cons; assumption. }
  unfold GDTail_recs. repeat first [ apply tags_cons; [reflexivity|] | apply tags_orec; [intros; reflexivity|] | apply M; [reflexivity|] ]. reflexivity.
Qed.

(** ** Termination of the tail *)
Lemma Term_cursor {A} (m : cu_M A) b : CNoof m -> Term (cursor m b).
Proof. intros H. apply Term_lift. specialize (H b). unfold no_oof in *. destruct (m b) as [[x b']|f]; [discriminate|]. intros E. apply H. congruence. Qed.
Lemma Term_nested {A} (m : rd_M A) b : Term m -> Term (nested m b).
Proof.
  intros H B r HB HS. unfold nested. pose proof (run_reader_term m H (r_checked r) b) as T. unfold run_reader in T.
  destruct (m _) as [[x r']|f]; [auto|]. intros ->. apply T. reflexivity.
Qed.
Lemma CNoof_colors : CNoof read_colors.
Proof. apply CNoof_bind; [apply CNoof_repeat, CNoof_32|]. intros; apply CNoof_ret. Qed.
Ltac tdata L := apply Term_bind; [apply Term_get_record_data|intros; apply Term_bind; [apply L|intros; apply Term_ret]].
Lemma GDTail_term : Forall ArmTerm GDTail_arms.
Proof.
  unfold GDTail_arms. repeat (apply Forall_cons; [intro s; cbn [snd]|]); [..|apply Forall_nil].
  all: try (solve [tm]).
  - tdata (Term_cursor (cu_repeat (Z.to_nat (w32_to_Z (gt_materials_size s))) SaveMaterial_read)). apply CNoof_repeat, CNoof_SaveMaterial.
  - tdata (Term_cursor (cu_repeat (Z.to_nat (w32_to_Z (gt_materials_size s))) SavePhysicsMaterial_read)). apply CNoof_repeat, CNoof_SavePhysicsMaterial.
  - tdata (Term_nested Material_read). apply Material_term.
  - tdata (Term_nested RenderProbeG_read). apply RenderProbeG_term.
  - tdata (Term_cursor read_colors). apply CNoof_colors.
  - apply Term_bind; [apply Term_get_u32_nru|]. intros. apply Term_bind; [apply Term_get_swe_nru|]. intros. apply Term_ret.
Qed.

(** ** What reading yields in the tail *)
Definition no_empty {A} (o : option (list A)) : bool := match o with Some [] => false | _ => true end.
Definition GDTail_read_ok (v : GDTail) : bool := GDTail_str v && no_empty (gt_materials v) && no_empty (gt_render_probes v).
Lemma no_empty_stored v : no_empty (gt_materials v) = true -> no_empty (gt_render_probes v) = true -> GDTail_stored v = v.
Proof.
  intros H1 H2. unfold GDTail_stored.
  assert (E : forall A (o : option (list A)), no_empty o = true -> opt_of (olist o) = o) by (intros A [[|]|]; try discriminate; reflexivity).
  rewrite !E by assumption. destruct v. reflexivity.
Qed.
Lemma Yields_nested {A} (m : rd_M A) P b : fits (zlen b) = true -> Yields m P -> Yields (nested m b) P.
Proof.
  intros Hf H r x r' _ E. unfold nested in E. destruct (m _) as [[y r1]|] eqn:Em; [|discriminate].
  injection E as <- <-. split; [exact (proj1 (H (rd_new (r_checked r) b) _ _ Hf Em))|reflexivity].
Qed.
Lemma Yields_cursor {A} (m : cu_M A) (P : A -> Prop) b : (forall x b', m b = Ok (x, b') -> P x) -> Yields (cursor m b) P.
Proof. intros H. apply Yields_lift. intros y E. destruct (m b) as [[x b']|] eqn:Em; [|discriminate]. injection E as <-. eapply H; reflexivity. Qed.
Lemma olist_push {A} (o : option (list A)) x : olist (opt_push o x) = olist o ++ [x].
Proof. destruct o; reflexivity. Qed.
Lemma Forall_forallb {A} (f : A -> bool) l : Forall (fun x => f x = true) l -> forallb f l = true.
Proof. intros H. apply forallb_forall. rewrite Forall_forall in H. exact H. Qed.
Lemma Yields_code n : Yields (get_str_with_encoding_no_remaining_update n) (fun s => code_ok s = true).
Proof.
  unfold get_str_with_encoding_no_remaining_update. eapply Yields_bind; [apply scan_yields|]. intros b [H1 H2]. apply Yields_ret.
  unfold code_ok, code_bytes. rewrite swe_of_bytes_canonical, swe_bytes_roundtrip, H1, H2. reflexivity.
Qed.
Lemma no_empty_push {A} (o : option (list A)) x : no_empty (opt_push o x) = true.
Proof. destruct o as [[|]|]; reflexivity. Qed.
Lemma GDTail_yields : Forall (ArmYields (fun v => GDTail_read_ok v = true)) GDTail_arms.
Proof.
  unfold GDTail_arms.
  repeat (apply Forall_cons; [intros s Hs; cbn [snd]; unfold GDTail_read_ok, GDTail_str in Hs; split_all|]); [..|apply Forall_nil].
  Ltac fin := apply Yields_ret; unfold GDTail_read_ok, GDTail_str;
    cbn [set_gt_materials_size set_gt_materials_old set_gt_materials_physics_old set_gt_materials set_gt_render_probes set_gt_gameitems_size
         set_gt_sounds_size set_gt_images_size set_gt_fonts_size set_gt_collections_size set_gt_name set_gt_custom_colors set_gt_protection_data
         set_gt_code set_gt_locked gt_materials_size gt_materials_old gt_materials_physics_old gt_materials gt_render_probes gt_gameitems_size
         gt_sounds_size gt_images_size gt_fonts_size gt_collections_size gt_name gt_custom_colors gt_protection_data gt_code gt_locked opt_ok];
    repeat match goal with |- (_ && _) = true => apply andb_true_iff; split end; try assumption.
  all: try (solve [eapply Yields_bind; [apply Yields_any, Keeps_u32|]; intros ? _; fin]).
  - eapply Yields_bind; [apply Yields_record_data|]. intros d Hd. eapply Yields_bind; [apply Yields_cursor with (P := fun l => forallb SaveMaterial_ok l = true)|].
    + intros x b' E. apply (cu_repeat_inv _ (fun x => SaveMaterial_ok x = true) 76) in E; [apply Forall_forallb, E|]. apply SaveMaterial_inv.
    + intros x Hx. fin.
  - eapply Yields_bind; [apply Yields_record_data|]. intros d Hd. eapply Yields_bind; [apply Yields_cursor with (P := fun l => forallb SavePhysicsMaterial_ok l = true)|].
    + intros x b' E. apply (cu_repeat_inv _ (fun x => SavePhysicsMaterial_ok x = true) 48) in E; [apply Forall_forallb, E|]. apply SavePhysicsMaterial_inv.
    + intros x Hx. fin.
  - eapply Yields_bind; [apply Yields_record_data|]. intros d Hd. eapply Yields_bind; [apply Yields_nested; [exact Hd|apply Material_yields]|].
    intros x Hx. fin; [|apply no_empty_push]. rewrite olist_push. apply forallb_snoc; assumption.
  - eapply Yields_bind; [apply Yields_record_data|]. intros d Hd. eapply Yields_bind; [apply Yields_nested; [exact Hd|apply RenderProbeG_yields]|].
    intros x Hx. fin; [|apply no_empty_push]. rewrite olist_push. apply forallb_snoc; assumption.
  - eapply Yields_bind; [apply Yields_wstring|]. intros x Hx. fin.
  - eapply Yields_bind; [apply Yields_record_data|]. intros d Hd. eapply Yields_bind; [apply Yields_cursor with (P := fun l => zlen l = 16)|].
    + intros x b' E. unfold read_colors in E. apply cbind_inv in E. destruct E as (l & b1 & E & E2).
      apply (cu_repeat_inv _ (fun _ => True) 4) in E; [|intros b y b2 E3; apply cu_32_inv in E3; split; [exact I|lia]].
      unfold cret in E2. assert (x = map color_of_w32 l) as -> by congruence. unfold zlen. rewrite map_length. destruct E as (_ & -> & _). reflexivity.
    + intros x Hx. fin. rewrite Hx. reflexivity.
  - eapply Yields_bind; [apply Yields_record_data|]. intros d Hd. fin.
  - eapply Yields_bind; [apply Yields_any, Keeps_u32_nru|]. intros n _. eapply Yields_bind; [apply Yields_code|]. intros x Hx. fin.
Qed.

(** ** All of it *)
Definition last_tag (p : string) (rs : list rec) : string := fold_left (fun _ r => rec_tag r) rs p.
Lemma last_tag_app p a b : last_tag p (a ++ b) = last_tag (last_tag p a) b.
Proof. apply fold_left_app. Qed.
Lemma last_tag_in {S} (arms : list (arm S)) rs : rs <> [] -> forallb (fun r => tag_known arms (rec_tag r)) rs = true ->
  forall p, tag_known arms (last_tag p rs) = true.
Proof.
  induction rs as [|r rs IH]; [congruence|]. intros _ H p. cbn [forallb] in H. apply andb_true_iff in H. destruct H as [H1 H2].
  cbn [last_tag fold_left]. destruct rs as [|r' rs]; [exact H1|]. apply IH; [discriminate|exact H2].
Qed.
Definition disjoint {S T} (a : list (arm S)) (b : list (arm T)) : bool := forallb (fun t => negb (tag_known b t)) (map fst a).
Lemma lookup_known {S} (arms : list (arm S)) t a : lookup t arms = Some a -> In t (map fst arms).
Proof. intros H. apply lookup_in in H. apply (in_map fst) in H. exact H. Qed.
Lemma disjoint_lookup {S T} (a : list (arm S)) (b : list (arm T)) t x : disjoint a b = true -> lookup t a = Some x -> tag_known b t = false.
Proof.
  intros H L. apply lookup_known in L. unfold disjoint in H. rewrite forallb_forall in H. specialize (H t L).
  apply negb_true_iff in H. exact H.
Qed.
Lemma lookup_lift_skip {S T} (get : S -> T) set (b : list (arm T)) rest t :
  tag_known b t = false -> lookup t (lift_arms get set b ++ rest) = lookup t rest.
Proof. intros H. etransitivity; [exact (lookup_app t (lift_arms get set b) rest)|]. rewrite lookup_lift, (lookup_unknown b t H). reflexivity. Qed.
Lemma lookup_lift_take {S T} (get : S -> T) set (b : list (arm T)) rest t a :
  lookup t b = Some a -> lookup t (lift_arms get set b ++ rest) = Some (fun s => x <- a (get s) ;; rret (set x s)).
Proof. intros H. etransitivity; [exact (lookup_app t (lift_arms get set b) rest)|]. rewrite lookup_lift, H. reflexivity. Qed.

(** The handler treats the tags of each group like the group's arms do. *)
Definition GroupOf {T} (get : GameData -> T) (set : T -> GameData -> GameData) (arms : list (arm T)) : Prop :=
  forall t a, lookup t arms = Some a -> t <> "EFSS"%string /\
    lookup t GameData_arms = Some (fun s => x <- a (get s) ;; rret (set x s)).
Lemma efss_not {T} (arms : list (arm T)) t a : tag_known arms "EFSS" = false -> lookup t arms = Some a -> t <> "EFSS"%string.
Proof. intros H L ->. apply lookup_known in L. unfold tag_known in H. apply not_true_iff_false in H. apply H, existsb_exists. exists "EFSS"%string. split; [exact L|reflexivity]. Qed.
Ltac group := intros t a L; split; [refine (efss_not _ _ _ _ L); reflexivity|]; unfold GameData_arms;
  repeat (rewrite lookup_lift_skip by (refine (disjoint_lookup _ _ t _ _ L); vm_compute; reflexivity));
  first [apply lookup_lift_take, L | rewrite lookup_lift, L; reflexivity].
Lemma group_bounds : GroupOf gd_bounds set_gd_bounds GDBounds_arms. Proof. group. Qed.
Lemma group_desktop : GroupOf gd_desktop set_gd_desktop GDDesktop_arms. Proof. group. Qed.
Lemma group_cabinet : GroupOf gd_cabinet set_gd_cabinet GDCabinet_arms. Proof. group. Qed.
Lemma group_physics : GroupOf gd_physics set_gd_physics GDPhysics_arms. Proof. group. Qed.
Lemma group_scene : GroupOf gd_scene set_gd_scene GDScene_arms. Proof. group. Qed.
Lemma group_tail : GroupOf gd_tail set_gd_tail GDTail_arms. Proof. group. Qed.

Lemma Steps_gd {T} (get : GameData -> T) set (arms : list (arm T)) ver : GroupOf get set arms ->
  (forall x s, get (set x s) = x) -> (forall x y s, set x (set y s) = set x s) ->
  forall s rs s', Steps (dispatch arms) s rs s' -> forallb (fun r => tag_known arms (rec_tag r)) rs = true ->
  forall G p, set s G = G -> get G = s -> Steps (GameData_handler ver) (G, p) rs (set s' G, last_tag p rs).
Proof.
  intros HG Hgs Hss s rs s' HS. induction HS as [s|t n p s s1 rs s2 Hr Hh HS IH]; intros Ht G p0 HsG HgG.
  - rewrite HsG. constructor.
  - cbn [forallb rec_tag] in Ht. apply andb_true_iff in Ht. destruct Ht as [Ht Hts].
    destruct (tag_known_lookup _ _ Ht) as [a L]. destruct (HG t a L) as [Hne L'].
    assert (E : set s2 G = set s2 (set s1 G)) by (rewrite Hss; reflexivity). rewrite E.
    change (last_tag p0 (mkRec t n p :: rs)) with (last_tag t rs).
    econstructor; [exact Hr| |apply IH; [exact Hts|apply Hss|apply Hgs]].
    intros pre rest w c Hrest. specialize (Hh pre rest w c Hrest). unfold dispatch in Hh. rewrite L in Hh.
    unfold GameData_handler. apply String.eqb_neq in Hne. rewrite Hne. unfold dispatch_data. rewrite L'.
    unfold rbindM. rewrite HgG, Hh. reflexivity.
Qed.
Definition efss_rec (v : GameData) : list rec := orec (gd_bg_enable_fss v) (fun x => R "EFSS" (bool_bytes x)).
Lemma Steps_efss ver G p b :
  Steps (GameData_handler ver) (G, p) [R "EFSS" (bool_bytes b)]
    (set_gd_bg_enable_fss (Some b) (if (ver =? 1080) && negb (p =? "BOTM")%string then set_gd_beta true G else G), "EFSS"%string).
Proof.
  apply Steps_one; [reflexivity|]. intros pre rest w c _. unfold GameData_handler.
  change ("EFSS" =? "EFSS")%string with true. cbv iota zeta. unfold rbindM.
  rewrite (Gets_bool b pre rest _ "EFSS"%string w c (Z.le_refl _)). rewrite Z.sub_diag. reflexivity.
Qed.

Definition GameData_recs (ver : Z) (v : GameData) : list rec :=
  GDBounds_recs (gd_bounds v) ++
  (if (1080 <=? ver) && negb (gd_beta v) then efss_rec v else []) ++
  GDDesktop_recs (gd_desktop v) ++
  (if (ver <? 1080) || gd_beta v then efss_rec v else []) ++
  GDCabinet_recs (gd_cabinet v) ++ GDPhysics_recs (gd_physics v) ++ GDScene_recs (gd_scene v) ++ GDTail_recs (gd_tail v).
Definition GameData_groups_ok (v : GameData) : bool :=
  GDBounds_ok (gd_bounds v) && GDDesktop_ok (gd_desktop v) && GDCabinet_ok (gd_cabinet v) && GDPhysics_ok (gd_physics v) &&
  GDScene_ok (gd_scene v).
Definition GameData_ok (v : GameData) : bool := GameData_groups_ok v && GDTail_ok (gd_tail v).
Definition is_some {A} (o : option A) : bool := match o with Some _ => true | None => false end.
Definition beta_stored (ver : Z) (v : GameData) : bool :=
  is_some (gd_bg_enable_fss v) && (ver =? 1080) && (gd_beta v || is_some (GDBounds_camera_layout_mode (gd_bounds v))).
Definition GameData_stored (ver : Z) (v : GameData) : GameData :=
  set_gd_tail (GDTail_stored (gd_tail v)) (set_gd_beta (beta_stored ver v) v).

Lemma GameData_steps ver v : GameData_ok v = true ->
  exists p, Steps (GameData_handler ver) (GameData_default, ""%string) (GameData_recs ver v) (GameData_stored ver v, p).
Proof.
  intros H. unfold GameData_ok, GameData_groups_ok in H. split_all. unfold GameData_recs.
  destruct v as [vb vd vc vp vs vt vf be]. cbn [gd_bounds gd_desktop gd_cabinet gd_physics gd_scene gd_tail gd_bg_enable_fss gd_beta] in *.
  pose proof (Steps_gd gd_bounds set_gd_bounds GDBounds_arms ver group_bounds ltac:(reflexivity) ltac:(reflexivity) _ _ _ (GDBounds_steps vb ltac:(assumption)) (GDBounds_tags vb)) as S1.
  pose proof (Steps_gd gd_desktop set_gd_desktop GDDesktop_arms ver group_desktop ltac:(reflexivity) ltac:(reflexivity) _ _ _ (GDDesktop_steps vd ltac:(assumption)) (GDDesktop_tags vd)) as S2.
  pose proof (Steps_gd gd_cabinet set_gd_cabinet GDCabinet_arms ver group_cabinet ltac:(reflexivity) ltac:(reflexivity) _ _ _ (GDCabinet_steps vc ltac:(assumption)) (GDCabinet_tags vc)) as S3.
  pose proof (Steps_gd gd_physics set_gd_physics GDPhysics_arms ver group_physics ltac:(reflexivity) ltac:(reflexivity) _ _ _ (GDPhysics_steps vp ltac:(assumption)) (GDPhysics_tags vp)) as S4.
  pose proof (Steps_gd gd_scene set_gd_scene GDScene_arms ver group_scene ltac:(reflexivity) ltac:(reflexivity) _ _ _ (GDScene_steps vs ltac:(assumption)) (GDScene_tags vs)) as S5.
  pose proof (Steps_gd gd_tail set_gd_tail GDTail_arms ver group_tail ltac:(reflexivity) ltac:(reflexivity) _ _ _ (GDTail_steps vt ltac:(assumption)) (GDTail_tags vt)) as S6.
  assert (P1 : (last_tag ""%string (GDBounds_recs vb) =? "BOTM")%string = negb (is_some (GDBounds_camera_layout_mode vb))).
  { unfold GDBounds_recs. destruct (GDBounds_camera_layout_mode vb); reflexivity. }
  assert (P2 : forall p, (last_tag p (GDDesktop_recs vd) =? "BOTM")%string = false).
  { intros p. apply String.eqb_neq. intros E. assert (K : tag_known GDDesktop_arms (last_tag p (GDDesktop_recs vd)) = true).
    - apply last_tag_in; [|apply GDDesktop_tags]. unfold GDDesktop_recs. destruct (GDDesktop_bg_view_mode_desktop vd); discriminate.
    - rewrite E in K. discriminate K. }
  unfold GameData_stored, beta_stored. cbn [gd_bounds gd_desktop gd_cabinet gd_physics gd_scene gd_tail gd_bg_enable_fss gd_beta].
  assert (C : (ver <? 1080) || be = negb ((1080 <=? ver) && negb be)) by (destruct be; rewrite ?orb_true_r, ?andb_false_r, ?orb_false_r, ?andb_true_r; lia).
  rewrite C. clear C.
  Ltac rest6 S3 S4 S5 S6 := eapply Steps_app; [apply S3; reflexivity|eapply Steps_app; [apply S4; reflexivity|eapply Steps_app; [apply S5; reflexivity|apply S6; reflexivity]]].
  destruct vf as [f|].
  - unfold efss_rec. cbn [gd_bg_enable_fss orec is_some andb].
    destruct ((1080 <=? ver) && negb be) eqn:C1; cbn [negb app].
    + destruct ((ver =? 1080) && is_some (GDBounds_camera_layout_mode vb)) eqn:B; eexists; eapply Steps_eq.
      1,3: eapply Steps_app; [apply S1; reflexivity|];
        match goal with |- Steps _ _ (?r :: ?rs) _ => change (r :: rs) with ([r] ++ rs) end;
        (eapply Steps_app; [apply Steps_efss|]); rewrite P1, negb_involutive, B;
        (eapply Steps_app; [apply S2; reflexivity|]); rest6 S3 S4 S5 S6.
      all: apply andb_true_iff in C1; destruct C1 as [_ C1]; apply negb_true_iff in C1; subst be; cbn [orb]; rewrite B; reflexivity.
    + destruct (ver =? 1080) eqn:V; eexists; eapply Steps_eq.
      1,3: eapply Steps_app; [apply S1; reflexivity|]; (eapply Steps_app; [apply S2; reflexivity|]);
        match goal with |- Steps _ _ (?r :: ?rs) _ => change (r :: rs) with ([r] ++ rs) end;
        (eapply Steps_app; [apply Steps_efss|]); rewrite P2, V; cbn [negb andb]; rest6 S3 S4 S5 S6.
      * assert (be = true) as -> by (destruct be; [reflexivity|]; rewrite andb_true_r in C1; lia). reflexivity.
      * reflexivity.
  - unfold efss_rec. cbn [gd_bg_enable_fss orec is_some andb].
    assert (E : forall b : bool, (if b then [] else []) = @nil rec) by (intros []; reflexivity). rewrite !E. cbn [app].
    eexists. eapply Steps_eq.
    + eapply Steps_app; [apply S1; reflexivity|]. eapply Steps_app; [apply S2; reflexivity|]. rest6 S3 S4 S5 S6.
    + reflexivity.
Qed.

Lemma wapp_efss v b : wapp (if b : bool then wopt (gd_bg_enable_fss v) (fun x => write_tagged_bool "EFSS" x) else wskip) (enc (if b then efss_rec v else [])).
Proof. destruct b; [|apply wapp_wskip]. unfold efss_rec. apply wapp_orec. intros; wone. Qed.
Lemma GameData_wapp ver v : GameData_ok v = true -> wapp (GameData_write_m ver v) (enc (GameData_recs ver v ++ [endb])).
Proof.
  intros H. unfold GameData_ok, GameData_groups_ok in H. split_all. unfold GameData_write_m, GameData_recs. rewrite <- !app_assoc.
  apply wapp_app; [apply GDBounds_wapp; assumption|]. apply wapp_app; [apply wapp_efss|].
  apply wapp_app; [apply GDDesktop_wapp; assumption|]. apply wapp_app; [apply wapp_efss|].
  apply wapp_app; [apply GDCabinet_wapp; assumption|]. apply wapp_app; [apply GDPhysics_wapp; assumption|].
  apply wapp_app; [apply GDScene_wapp; assumption|]. apply GDTail_wapp; assumption.
Qed.
Definition GameData_bytes (ver : Z) (v : GameData) : bytes := enc (GameData_recs ver v ++ [endb]).
Lemma GameData_writes ver v : GameData_ok v = true -> GameData_write ver v = Ok (GameData_bytes ver v).
Proof. intros H. apply run_wapp; [apply GameData_wapp, H|]. unfold GameData_write_m, GDTail_write. closes. Qed.
Lemma GameData_reads ver v : GameData_ok v = true -> forall c, GameData_read ver c (GameData_bytes ver v) = Ok (GameData_stored ver v).
Proof.
  intros H c. destruct (GameData_steps ver v H) as [p HS]. unfold GameData_read, GameData_loop.
  rewrite (run_reader_reads _ _ _ (loop_reads _ _ _ _ HS)). reflexivity.
Qed.

(** *** Termination *)
Lemma Forall_lift {S T} (get : S -> T) set (arms : list (arm T)) : Forall ArmTerm arms -> Forall ArmTerm (lift_arms get set arms).
Proof.
  intros H. unfold lift_arms. induction H as [|[k a] arms Ha H IH]; cbn [map]; constructor; [|exact IH].
  intros s. cbn [snd]. apply Term_bind; [apply Ha|]. intros; apply Term_ret.
Qed.
Lemma GameData_arms_term : Forall ArmTerm GameData_arms.
Proof.
  unfold GameData_arms. repeat (apply Forall_app; split);
    apply Forall_lift; first [apply GDBounds_term|apply GDDesktop_term|apply GDCabinet_term|apply GDPhysics_term|apply GDScene_term|apply GDTail_term].
Qed.
Lemma GameData_term ver : Term (GameData_loop ver).
Proof.
  apply Term_run_loop. intros t [g p]. unfold GameData_handler. apply Term_bind; [|intros; apply Term_ret].
  destruct (t =? "EFSS")%string.
  - cbv zeta. apply Term_bind; [apply Term_get_bool|]. intros; apply Term_ret.
  - apply Term_dispatch_data, GameData_arms_term.
Qed.

(** *** What reading yields *)
Definition GameData_read_ok (ver : Z) (v : GameData) : Prop :=
  GameData_groups_ok v = true /\ GDTail_read_ok (gd_tail v) = true /\
  (gd_beta v = true -> ver = 1080 /\ gd_bg_enable_fss v <> None).
Lemma ArmYields_lift {S T} (get : S -> T) (set : T -> S -> S) (arms : list (arm T)) (P : T -> Prop) (Q : S -> Prop) :
  Forall (ArmYields P) arms -> (forall s, Q s -> P (get s)) -> (forall x s, P x -> Q s -> Q (set x s)) ->
  Forall (ArmYields Q) (lift_arms get set arms).
Proof.
  intros H H1 H2. unfold lift_arms. induction H as [|[k a] arms Ha H IH]; cbn [map]; constructor; [|exact IH].
  intros s Hs. cbn [snd]. eapply Yields_bind; [apply (Ha (get s)), H1, Hs|]. intros x Hx. apply Yields_ret, H2; assumption.
Qed.
Lemma GameData_arms_yields ver : Forall (ArmYields (GameData_read_ok ver)) GameData_arms.
Proof.
  unfold GameData_arms. repeat (apply Forall_app; split).
  all: (eapply ArmYields_lift; [first [apply GDBounds_yields|apply GDDesktop_yields|apply GDCabinet_yields|apply GDPhysics_yields|apply GDScene_yields|apply GDTail_yields]| |]).
  all: unfold GameData_read_ok, GameData_groups_ok.
  all: try (intros s (H & _); split_all; assumption).
  all: try (intros s (_ & H & _); assumption).
  all: intros x s Hx (H1 & H2 & H3); split_all; repeat split;
    cbn [set_gd_bounds set_gd_desktop set_gd_cabinet set_gd_physics set_gd_scene set_gd_tail gd_bounds gd_desktop gd_cabinet gd_physics gd_scene gd_tail gd_beta gd_bg_enable_fss] in *;
    repeat match goal with |- (_ && _) = true => apply andb_true_iff; split end; try assumption; try (apply H3; assumption).
Qed.
Lemma GameData_yields ver : Yields (GameData_loop ver) (fun s => GameData_read_ok ver (fst s)).
Proof.
  apply Yields_run_loop.
  2:{ repeat split; try reflexivity; discriminate. }
  intros t [g p] Hg. cbn [fst] in Hg. unfold GameData_handler. eapply Yields_bind with (P := GameData_read_ok ver); [|intros; apply Yields_ret; assumption].
  destruct (t =? "EFSS")%string.
  - cbv zeta. eapply Yields_bind; [apply Yields_any, Keeps_bool|]. intros b _. apply Yields_ret.
    destruct Hg as (H1 & H2 & H3). unfold GameData_read_ok, GameData_groups_ok in *.
    destruct ((ver =? 1080) && negb (p =? "BOTM")%string) eqn:E;
      cbn [set_gd_beta set_gd_bg_enable_fss gd_bounds gd_desktop gd_cabinet gd_physics gd_scene gd_tail gd_beta gd_bg_enable_fss];
      (split; [exact H1|split; [exact H2|]]); intros Hb; split; try discriminate.
    + lia.
    + apply H3, Hb.
  - apply Yields_dispatch_data; [apply GameData_arms_yields|exact Hg].
Qed.
Lemma GameData_read_yields ver c b v : fits (zlen b) = true -> GameData_read ver c b = Ok v -> GameData_read_ok ver v.
Proof.
  intros Hf E. unfold GameData_read in E. destruct (run_reader (GameData_loop ver) c b) as [s|] eqn:Er; [|discriminate].
  cbn [rbind] in E. injection E as <-. exact (run_reader_yields _ _ (GameData_yields ver) c b s Hf Er).
Qed.
(** Saving what was read and reading it again. *)
Lemma GameData_resave ver c b v : fits (zlen b) = true -> GameData_read ver c b = Ok v ->
  GDTail_sizes (gd_tail v) = true -> GDTail_fits (gd_tail v) = true ->
  exists b', GameData_write ver v = Ok b' /\
    (forall c', GameData_read ver c' b' = Ok (set_gd_beta (beta_stored ver v) v)).
Proof.
  intros Hf E Hs Hl. destruct (GameData_read_yields ver c b v Hf E) as (H1 & H2 & H3).
  unfold GDTail_read_ok in H2. split_all.
  assert (Hok : GameData_ok v = true).
  { unfold GameData_ok, GDTail_ok. rewrite H1, Hs, Hl. cbn [andb]. assumption. }
  exists (GameData_bytes ver v). split; [apply GameData_writes, Hok|]. intros c'. rewrite GameData_reads by exact Hok.
  unfold GameData_stored. rewrite no_empty_stored by assumption. destruct v. reflexivity.
Qed.

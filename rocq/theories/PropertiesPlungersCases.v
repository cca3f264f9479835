(** C68: meshes of plungers, findings and cases.

    The code is in Plungers.v; what the property means is in SpecPlungers.v. *)
From Coq Require Import Reals Lra Floats.SpecFloat ZifyBool Permutation Sorted.
From Verif Require Import Base Text Json Image Sound Quantize QuantizeMono ColorText Cfb JsonFloat FlipFacts Mesh SpecMesh Browser Common Enums ItemPlunger Builtin SpecBuiltin BuiltinFacts Polygon SpecPolygon Smooth SpecSmooth PropertiesSmooth SpecWalls RubberMesh SpecRubber RubberFacts SpecRamps RampFacts FloatBounds RampReals SpecFlats Plungers SpecPlungers PlungerFacts PlungerReals.
From Verif Require Import PropertiesPlungers.
Local Open Scope Z_scope.

(** ** Findings *)
(** A spring with more than 8192 rings has more vertices than its triangles can name: a build that does not check for overflow returns a mesh that is none. *)
Theorem C68_index_refuted : forall sin cos parse p, Plunger_is_visible p = true -> full p -> 8192 < rings p ->
  ~ (exists r, build_plunger_meshes sin cos parse true p = Ok r) /\
  exists r m, build_plunger_meshes sin cos parse false p = Ok r /\ pl_spring r = Some m /\ zlen (fst m) = 8 * rings p /\ ~ proper m.
Proof.
  intros sin cos parse p V F L. split; [intros X; apply (proj1 (proj2 (C68_total sin cos parse p))) in X; [destruct X as [_ X]; lia|exact V|exact F]|].
  destruct (wrapped_spring sin cos parse p) as (m & M & S & N). destruct (wrapped_tip sin cos parse p) as (t & T & _). eexists. exists m. rewrite build_full by assumption. rewrite M, T. cbn [rbind]. split; [reflexivity|]. split; [reflexivity|]. specialize (N ltac:(lia)). split; [exact N|]. intros [_ P]. specialize (P 65536 ltac:(lia)).
  apply Exists_exists in P. destruct P as (f & I & U). rewrite Forall_forall in S. specialize (S f I). unfold short in S. unfold uses in U. lia.
Qed.
Print Assumptions C68_index_refuted.

(** ** Cases *)
(** Sines at the sixteen places of a ring; any other angle is moved to the next place *)
Definition sines : list Z := [0x80000000; 0xbec3ef15; 0xbf3504f3; 0xbf6c835e; 0xbf800000; 0xbf6c835e; 0xbf3504f3; 0xbec3ef15; 0; 0x3ec3ef15; 0x3f3504f3; 0x3f6c835e; 0x3f800000; 0x3f6c835e; 0x3f3504f3; 0x3ec3ef15].
Definition place_of (a : f32) : nat := match find (fun i => negb (lt32 (lathe_angle i) (neg_f32 a))) (steps 16) with Some i => Z.to_nat i | None => 0%nat end.
Definition table_sin (a : f32) : f32 := Z_to_w32 (nth (place_of a) sines 0).
Definition table_cos (a : f32) : f32 := Z_to_w32 (nth ((place_of a + 12) mod 16) sines 0).
(** The words of a short tip *)
Definition word_value (s : rstring) : option f32 :=
  if rstring_eqb s (lit "0") then Some f32_zero else if rstring_eqb s (lit "2") then Some f32_two else if rstring_eqb s (lit "14") then Some (int32 14) else if rstring_eqb s (lit ".5") then Some f32_half else None.
Definition default_plunger : Plunger := set_Plunger_spring_loops f32_one (set_Plunger_spring_end_loops f32_half (set_Plunger_tip_shape (lit "2 .5; 0 .5;;x; 14 2") Plunger_default)).
Definition flat_plunger : Plunger := set_Plunger_plunger_type PlungerType_Flat default_plunger.
Definition long_spring : Plunger := set_Plunger_spring_loops (int32 344) default_plunger.
Example C68_tip_points_case : parse_tip_shape word_value (Plunger_tip_shape default_plunger) = [mkTip f32_zero (Z_to_w32 0x3e800000); mkTip f32_two (Z_to_w32 0x3e800000); mkTip (int32 14) f32_one].
Proof. vm_compute. reflexivity. Qed.
Example C68_total_case : Plunger_is_visible default_plunger = true /\ full default_plunger /\ fits (parse_tip_shape word_value (Plunger_tip_shape default_plunger)) default_plunger /\ rings default_plunger = 48 /\
  Plunger_is_visible long_spring = true /\ full long_spring /\ 8192 < rings long_spring /\ ~ full flat_plunger.
Proof.
  assert (R : rings default_plunger = 48) by (vm_compute; reflexivity). assert (Q : rings long_spring = 8280) by (vm_compute; reflexivity).
  split; [reflexivity|]. split; [left; reflexivity|]. split; [split; [rewrite C68_tip_points_case; vm_compute; discriminate|rewrite R; lia]|]. split; [exact R|]. split; [reflexivity|]. split; [left; reflexivity|]. split; [rewrite Q; lia|]. intros [E|E]; discriminate.
Qed.
Definition has_mesh (o : option mesh) (n k : Z) : bool := match o with Some m => (zlen (fst m) =? n) && (zlen (snd m) =? k) | None => false end.
Lemma result_of {A} (x : res A) (P : A -> bool) : match x with Ok r => P r | Fail _ => false end = true -> exists r, x = Ok r /\ P r = true.
Proof. destruct x as [r|]; [exists r; auto|discriminate]. Qed.
Example C68_mesh_case : exists r, build_plunger_meshes table_sin table_cos word_value true default_plunger = Ok r /\
  has_mesh (pl_rod r) 145 144 && has_mesh (pl_ring r) 96 96 && has_mesh (pl_tip r) 64 64 && has_mesh (pl_spring r) 384 752 = true.
Proof. apply (result_of (build_plunger_meshes table_sin table_cos word_value true default_plunger) (fun r => has_mesh (pl_rod r) 145 144 && has_mesh (pl_ring r) 96 96 && has_mesh (pl_tip r) 64 64 && has_mesh (pl_spring r) 384 752)). vm_compute. reflexivity. Qed.
Lemma table_unit e : Z.abs e <= 2 ^ 149 -> (Rabs (IZR e / IZR (2 ^ 149)) <= 1)%R.
Proof.
  intros H. assert (P : 0 < 2 ^ 149) by (apply Z.pow_pos_nonneg; lia). revert H P. generalize (2 ^ 149). intros b H P. apply IZR_lt in P. apply IZR_le in H. rewrite abs_IZR in H. unfold Rdiv. rewrite Rabs_mult, (Rabs_pos_eq (/ IZR b)) by (apply Rlt_le, Rinv_0_lt_compat, P).
  apply (Rmult_le_reg_r (IZR b)); [exact P|]. rewrite Rmult_assoc, Rinv_l by lra. lra.
Qed.
Lemma real_whole x n : exact x = n * 2 ^ 149 -> real x = IZR n.
Proof.
  intros H. unfold real. rewrite H, mult_IZR. assert (P : 0 < 2 ^ 149) by (apply Z.pow_pos_nonneg; lia). clear H. revert P. generalize (2 ^ 149). intros b P. apply IZR_lt in P. field. lra.
Qed.
Lemma table_bounded n : finite32 (Z_to_w32 (nth n sines 0)) /\ (Rabs (real (Z_to_w32 (nth n sines 0%Z))) <= 1)%R.
Proof.
  assert (H : forall z, In z (0 :: sines) -> finite32 (Z_to_w32 z) /\ Z.abs (exact (Z_to_w32 z)) <= 2 ^ 149) by (intros z I; cbn [In sines] in I; repeat destruct I as [<-|I]; try contradiction; split; (exact Logic.I || (vm_compute; discriminate))).
  assert (I : In (nth n sines 0) (0 :: sines)) by (destruct (nth_in_or_default n sines 0) as [I| ->]; [right; exact I|left; reflexivity]). destruct (H _ I) as [A B]. split; [exact A|]. unfold real. revert B. generalize (exact (Z_to_w32 (nth n sines 0))). intros e B. apply table_unit, B.
Qed.
Example C68_texture_case : bounded_function table_sin /\ bounded_function table_cos /\ moderate (turns default_plunger) /\ (/ 2 <= real (turns default_plunger) <= 341)%R /\ (342 <= real (turns long_spring))%R /\ moderate (turns long_spring) /\
  let points := parse_tip_shape word_value (Plunger_tip_shape default_plunger) in moderate (tip_end points) /\ (/ 1000000 <= real (tip_end points))%R /\ (forall t, In t points -> finite32 (tip_y t) /\ (0 <= real (tip_y t))%R).
Proof.
  split; [intros a _; apply table_bounded|]. split; [intros a _; apply table_bounded|]. cbv zeta. rewrite C68_tip_points_case. cbn [tip_end map last tip_y].
  split; [split; vm_compute; (exact Logic.I || discriminate)|]. split; [rewrite (real_whole (turns default_plunger) 2) by (vm_compute; reflexivity); lra|]. split; [rewrite (real_whole (turns long_spring) 345) by (vm_compute; reflexivity); lra|]. split; [split; vm_compute; (exact Logic.I || discriminate)|].
  split; [split; vm_compute; (exact Logic.I || discriminate)|]. split; [rewrite (real_whole (int32 14) 14) by (vm_compute; reflexivity); lra|].
  intros t I. cbn [In] in I. destruct I as [<-|[<-|[<-|[]]]]; cbn [tip_y]; (split; [exact Logic.I|]); [rewrite (real_whole f32_zero 0) by (vm_compute; reflexivity)|rewrite (real_whole f32_two 2) by (vm_compute; reflexivity)|rewrite (real_whole (int32 14) 14) by (vm_compute; reflexivity)]; lra.
Qed.
(** Which triangles show the side of their normals *)
Definition sign (x : f32) : Z := if lt32 f32_zero x then 1 else if lt32 x f32_zero then -1 else 0.
Lemma sign_up x : (sign x =? 1) = true -> lt32 f32_zero x = true.
Proof. unfold sign. destruct (lt32 f32_zero x); [reflexivity|]. destruct (lt32 x f32_zero); discriminate. Qed.
Lemma sign_down x : (sign x =? -1) = true -> lt32 x f32_zero = true.
Proof. unfold sign. destruct (lt32 f32_zero x); [discriminate|]. destruct (lt32 x f32_zero); [reflexivity|discriminate]. Qed.
Definition signs (m : mesh) : list Z := map (fun f => sign (side m f)) (snd m).
Lemma sides_below m : forallb (fun x => x =? -1) (signs m) = true -> forall f, In f (snd m) -> lt32 (side m f) f32_zero = true.
Proof. intros H f I. rewrite forallb_forall in H. apply sign_down. apply H. apply (in_map (fun f => sign (side m f))), I. Qed.
Lemma sides_above m : forallb (fun x => x =? 1) (signs m) = true -> forall f, In f (snd m) -> lt32 f32_zero (side m f) = true.
Proof. intros H f I. rewrite forallb_forall in H. apply sign_up. apply H. apply (in_map (fun f => sign (side m f))), I. Qed.
Definition two_signs (l : list Z) : bool := existsb (fun x => x =? 1) l && existsb (fun x => x =? -1) l.
Lemma sides_both m : two_signs (signs m) = true -> ~ one_sided m.
Proof.
  intros H. apply andb_prop in H. destruct H as [A B]. apply existsb_exists in A. apply existsb_exists in B. destruct A as (x & X & A), B as (y & Y & B). apply in_map_iff in X. apply in_map_iff in Y. destruct X as (f & <- & F), Y as (g & <- & G). apply sign_up in A. apply sign_down in B. intros [H|H].
  - exact (eq_true_false_abs _ B (H g G)).
  - exact (eq_true_false_abs _ A (H f F)).
Qed.
(** A plunger shows the wrong side of its triangles: those of a flat rod go against their normals at every place, while those of the other rod go with them, except
    for the disc: it closes the end at the tip, not the player's end as the code says, and has the normal for the other end. *)
Theorem C68_facing_refuted :
  (forall r m, build_plunger_meshes table_sin table_cos word_value true flat_plunger = Ok r -> pl_flat_rod r = Some m -> forall f, In f (snd m) -> lt32 (side m f) f32_zero = true) /\
  (forall r m, build_plunger_meshes table_sin table_cos word_value true default_plunger = Ok r -> pl_rod r = Some m -> ~ one_sided m) /\
  (forall r m, build_plunger_meshes table_sin table_cos word_value true default_plunger = Ok r -> pl_ring r = Some m -> forall f, In f (snd m) -> lt32 f32_zero (side m f) = true).
Proof.
  split; [|split].
  - intros r m E M. rewrite build_flat in E; [|reflexivity|exact (proj2 (proj2 (proj2 (proj2 (proj2 (proj2 (proj2 C68_total_case)))))))]. injection E as <-. cbn [pl_flat_rod] in M. injection M as <-. apply sides_below. vm_compute. reflexivity.
  - intros r m E M. destruct (parts_are _ _ _ _ _ _ (proj1 (proj2 (proj2 C68_total_case))) E) as (_ & A & _). rewrite (A m M). apply sides_both. vm_compute. reflexivity.
  - intros r m E M. destruct (parts_are _ _ _ _ _ _ (proj1 (proj2 (proj2 C68_total_case))) E) as (_ & _ & A & _). rewrite (A m M). apply sides_above. vm_compute. reflexivity.
Qed.
Print Assumptions C68_facing_refuted.

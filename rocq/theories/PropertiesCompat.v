(** C39: compatibility rules. *)
From Coq Require Import Floats.SpecFloat.
From Verif Require Import Base Text Biff Quantize Common Enums ItemBase ItemLight ItemPrimitive Structs BaseFacts Compat SpecCompat.

Lemma ignore_case_iff s t : Forall (fun d => ~ (65 <= d <= 90)%N) t -> (eq_ignore_ascii_case s t = true <-> same_up_to_case s t).
Proof.
  intros H. revert s. induction H as [|d t Hd H IH]; intros s.
  - destruct s; cbn; split; intros K; try constructor; try discriminate K; inversion K.
  - destruct s as [|c s]; cbn [eq_ignore_ascii_case]; [split; intros K; [discriminate K|inversion K]|].
    rewrite andb_true_iff, IH, N.eqb_eq. change uchar with N in *.
    assert (E : to_ascii_lowercase c = to_ascii_lowercase d <-> (c = d \/ ((97 <= d <= 122)%N /\ (c + 32 = d)%N))).
    { unfold to_ascii_lowercase. destruct ((65 <=? c)%N && (c <=? 90)%N) eqn:Ec, ((65 <=? d)%N && (d <=? 90)%N) eqn:Ed; lia. }
    rewrite E. split; [intros [K1 K2]; constructor; assumption|intros K; inversion K; subst; auto].
Qed.
Lemma playfield_iff p : is_playfield p = true <-> called_playfield p.
Proof. apply ignore_case_iff. repeat constructor; intros K; revert K; vm_compute; intuition congruence. Qed.
Lemma finite_eqb p q e f : SFeqb (S754_finite false p e) (S754_finite false q f) = true -> p = q /\ e = f.
Proof.
  unfold SFeqb, SFcompare. destruct (Z.compare_spec e f); try discriminate. fold (Pos.compare p q).
  destruct (Pos.compare_spec p q); try discriminate. auto.
Qed.
Lemma one_iff x : f32_eqb x f32_1 = true <-> x = one.
Proof.
  split; [|intros ->; reflexivity]. unfold f32_eqb. change (f32_value f32_1) with (S754_finite false 8388608 (-23)). intros H.
  pose proof (w32_to_Z_range x) as R. rewrite <- (Z_to_w32_to_Z x). unfold one. f_equal. revert H. unfold f32_value.
  set (z := w32_to_Z x) in *. pose proof (Z.div_mod z 8388608 ltac:(lia)) as D. pose proof (Z.mod_pos_bound z 8388608 ltac:(lia)) as B.
  pose proof (Z.div_mod (z / 8388608) 256 ltac:(lia)) as D2. pose proof (Z.mod_pos_bound (z / 8388608) 256 ltac:(lia)) as B2.
  set (e := (z / 8388608) mod 256) in *. set (m := z mod 8388608) in *.
  destruct (Z.eqb_spec e 255); [destruct (Z.eqb_spec m 0); [|discriminate]; destruct (2147483648 <=? z); discriminate|].
  destruct (Z.eqb_spec e 0).
  - destruct m as [|p|p]; try (destruct (2147483648 <=? z); discriminate).
  - destruct (m + 8388608) as [|p|p] eqn:M; try discriminate. destruct (Z.leb_spec 2147483648 z) as [L|L]; [discriminate|].
    intros H. apply finite_eqb in H. destruct H as [-> C]. clearbody m e. lia.
Qed.
Lemma opaque_iff m : match m with Some (active, opacity) => negb active || f32_eqb opacity f32_1 | None => false end = true <-> opaque m.
Proof.
  unfold opaque. destruct m as [[a o]|]; [|split; [discriminate|intros (? & ? & H & _); discriminate]].
  rewrite orb_true_iff, negb_true_iff, one_iff. split; [eauto|]. intros (? & ? & [= -> ->] & H). exact H.
Qed.
Lemma pre_iff v : is_pre_10_8 v = true <-> w32_to_Z v < 1080.
Proof. apply Z.ltb_lt. Qed.
Lemma pre_spec v : reflect (w32_to_Z v < 1080) (is_pre_10_8 v).
Proof. apply iff_reflect. symmetry. apply pre_iff. Qed.
Lemma playfield_spec p : reflect (called_playfield p) (is_playfield p).
Proof. apply iff_reflect. symmetry. apply playfield_iff. Qed.

(** C39: for every primitive, material and file version, what the exporters use is the field of the primitive as the player shows
    it; from version 1080 on that is the stored field. *)
Theorem C39_primitive : forall p material version, exists q, loaded_primitive version material p q /\
  (forall q', loaded_primitive version material p q' -> q' = q) /\
  primitive_is_visible p version = Primitive_is_visible q /\
  primitive_static_rendering p version = Primitive_static_rendering q /\
  primitive_depth_bias p version = Primitive_depth_bias q /\
  primitive_backfaces_enabled p version = Primitive_backfaces_enabled q /\
  primitive_disable_lighting_below p material version = Primitive_disable_lighting_below q.
Proof.
  intros p material v. unfold loaded_primitive, primitive_is_visible, primitive_static_rendering, primitive_depth_bias,
    primitive_backfaces_enabled, primitive_disable_lighting_below.
  destruct (pre_spec v) as [V|V]; cbn [andb].
  - destruct (playfield_spec p) as [P|P].
    + eexists. split; [right; split; [exact V|left; split; [exact P|reflexivity]]|].
      split; [|repeat split; reflexivity]. intros q' [[? _]|[_ [[_ ->]|[[? _]|[? _]]]]]; [lia|reflexivity|contradiction|contradiction].
    + destruct (match material with Some (active, opacity) => negb active || f32_eqb opacity f32_1 | None => false end) eqn:O.
      * pose proof (proj1 (opaque_iff material) O) as OP.
        exists (set_Primitive_disable_lighting_below (Some one) p). split; [right; split; [exact V|right; left; auto]|].
        split; [intros q' [[? _]|[_ [[? _]|[[_ [_ ->]]|[_ [? _]]]]]]; [lia|contradiction|reflexivity|contradiction]|].
        repeat split; try reflexivity. destruct material as [[a o]|]; [rewrite O; reflexivity|discriminate O].
      * assert (OP : ~ opaque material) by (intros K; apply opaque_iff in K; exact (eq_true_false_abs _ K O)).
        exists p. split; [right; split; [exact V|right; right; auto]|].
        split; [intros q' [[? _]|[_ [[? _]|[[_ [? _]]|[_ [_ ->]]]]]]; [lia|contradiction|contradiction|reflexivity]|].
        repeat split; try reflexivity. destruct material as [[a o]|]; [rewrite O; reflexivity|reflexivity].
  - exists p. split; [left; split; [lia|reflexivity]|]. split; [|repeat split; reflexivity]. intros q' [[_ ->]|[? _]]; [reflexivity|lia].
Qed.
Print Assumptions C39_primitive.
Example C39_primitive_used : exists p, called_playfield p /\ Primitive_is_visible p = false /\
  primitive_is_visible p (Z_to_w32 1079) = true /\ primitive_is_visible p (Z_to_w32 1080) = false.
Proof.
  exists (set_Primitive_is_visible false (set_Primitive_name (lit "PlayField_Mesh") Primitive_default)).
  split; [apply playfield_iff; reflexivity|]. repeat split; reflexivity.
Qed.

(** C39: the same for every light. *)
Theorem C39_light : forall l version, exists k, loaded_light version l k /\ (forall k', loaded_light version l k' -> k' = k) /\
  light_height l version = Light_height k /\
  light_show_bulb_mesh l version = Light_show_bulb_mesh k /\
  light_show_reflection_on_ball l version = Light_show_reflection_on_ball k.
Proof.
  intros l v. unfold loaded_light, light_height, light_show_bulb_mesh, light_show_reflection_on_ball.
  destruct (pre_spec v) as [V|V]; cbn [andb].
  - destruct (Light_is_bulb_light l) eqn:B; cbn [negb].
    + destruct (Light_visible l) as [[|]|] eqn:S; cbn [negb].
      * eexists. split; [right; split; [exact V|right; left; split; [reflexivity|split; [discriminate|reflexivity]]]|].
        split; [|repeat split; reflexivity]. intros k' [[? _]|[_ [[_ [? _]]|[[_ [_ ->]]|[? _]]]]]; [lia|discriminate|reflexivity|discriminate].
      * eexists. split; [right; split; [exact V|left; split; [reflexivity|split; [reflexivity|reflexivity]]]|].
        split; [|repeat split; reflexivity]. intros k' [[? _]|[_ [[_ [_ ->]]|[[_ [? _]]|[? _]]]]]; [lia|reflexivity|congruence|discriminate].
      * eexists. split; [right; split; [exact V|right; left; split; [reflexivity|split; [discriminate|reflexivity]]]|].
        split; [|repeat split; reflexivity]. intros k' [[? _]|[_ [[_ [? _]]|[[_ [_ ->]]|[? _]]]]]; [lia|discriminate|reflexivity|discriminate].
    + eexists. split; [right; split; [exact V|right; right; split; reflexivity]|].
      split; [|repeat split; reflexivity]. intros k' [[? _]|[_ [[? _]|[[? _]|[_ ->]]]]]; [lia|discriminate|discriminate|reflexivity].
  - exists l. split; [left; split; [lia|reflexivity]|]. split; [|repeat split; reflexivity]. intros k' [[_ ->]|[? _]]; [reflexivity|lia].
Qed.
Print Assumptions C39_light.
Example C39_light_used : exists l, Light_is_bulb_light l = true /\ Light_visible l = Some false /\ Light_show_bulb_mesh l = true /\
  light_show_bulb_mesh l (Z_to_w32 1079) = false /\ light_show_bulb_mesh l (Z_to_w32 1080) = true.
Proof.
  exists (set_Light_is_bulb_light true (set_Light_visible (Some false) (set_Light_show_bulb_mesh true Light_default))).
  repeat split; reflexivity.
Qed.

(** C39: the glass is horizontal in old files; in new files the stored height counts, if there is one. *)
Theorem C39_glass : forall top bottom version,
  (w32_to_Z version < 1080 -> glass_bottom_height top bottom version = top) /\
  (1080 <= w32_to_Z version -> forall b, bottom = Some b -> glass_bottom_height top bottom version = b) /\
  (bottom = None -> glass_bottom_height top bottom version = top).
Proof.
  intros top bottom v. unfold glass_bottom_height. destruct (pre_spec v) as [V|V]; repeat split; intros; subst; try reflexivity; lia.
Qed.
Print Assumptions C39_glass.

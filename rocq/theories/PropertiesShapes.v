(** C69: hit targets, gates, spinners, kickers and triggers: copies of built-in shapes.

    The code is in Shapes.v; what the property means is in SpecShapes.v. *)
From Coq Require Import Reals Lra Floats.SpecFloat ZifyBool.
From Verif Require Import Base Text Json Image Sound Quantize ColorText Cfb JsonFloat Mesh SpecMesh Browser Common Enums Builtin SpecBuiltin Polygon SpecPolygon Smooth SpecSmooth PropertiesSmooth RubberMesh SpecRamps Transform Flats SpecFlats PropertiesFlats ItemHitTarget ItemGate ItemSpinner ItemKicker ItemTrigger Shapes SpecShapes ShapeReals.
Local Open Scope Z_scope.

(** ** Lemmas *)
Lemma triples_ok l : zlen l mod 3 = 0 -> exists fs, triples l = Ok fs /\ flat_map corners fs = l.
Proof.
  remember (List.length l) as n eqn:E. revert l E. induction n as [n IH] using lt_wf_ind. intros l E H. destruct l as [|x [|y [|z r]]].
  - exists []. auto.
  - discriminate H.
  - discriminate H.
  - destruct (IH (List.length r)) with (l := r) as (fs & T & C); [subst n; cbn [List.length]; lia|reflexivity| |].
    + unfold zlen in H |- *. cbn [List.length] in H. rewrite !Nat2Z.inj_succ in H. replace (Z.succ (Z.succ (Z.succ (Z.of_nat (List.length r))))) with (Z.of_nat (List.length r) + 1 * 3) in H by lia. rewrite Z.mod_add in H by lia. exact H.
    + exists (mkFace x y z :: fs). cbn [triples]. rewrite T. split; [reflexivity|]. cbn [flat_map corners f_0 f_1 f_2 app]. rewrite C. reflexivity.
Qed.
Lemma Forall2_mapped {A B : Type} (P : A -> B -> Prop) (f : A -> B) l : (forall x, In x l -> P x (f x)) -> Forall2 P l (map f l).
Proof. induction l as [|x l IH]; intros H; constructor; [apply H; left; reflexivity|apply IH; intros y Y; apply H; right; exact Y]. Qed.
Section Library.
Variable library : Shape -> list Vtx * list Z.
Hypothesis sound : forall s, sound_shape (library s).
Lemma copy_ok s f : exists m, copy_of library s f = Ok m /\ same_triangles (library s) m /\ fst m = map (fun v => mkWrapper (repeat x00 32) (f v)) (fst (library s)).
Proof.
  destruct (sound s) as [D _]. destruct (triples_ok _ D) as (fs & T & C). unfold copy_of. rewrite T. eexists. split; [reflexivity|]. split; [|reflexivity]. split; [exact C|]. cbn [fst]. unfold zlen. rewrite map_length. reflexivity.
Qed.
Lemma copy_place s p n m : copy_of library s (fun v => with_place (p v) (n v) v) = Ok m -> copy (library s) m.
Proof.
  destruct (copy_ok s (fun v => with_place (p v) (n v) v)) as (m' & E & T & F). rewrite E. intros [= <-]. split; [exact T|]. unfold same_picture. rewrite F. apply Forall2_mapped. intros v _. split; reflexivity.
Qed.
Lemma copy_changed s f m ov change e : copy_of library s f = Ok m -> (forall v, In v (fst (library s)) -> at_vertex ov e (f v) (change (reals (ov v)))) -> changed ov change e (library s) m.
Proof. destruct (copy_ok s f) as (m' & E & _ & F). rewrite E. intros [= <-] H. unfold changed. rewrite F. apply Forall2_mapped. intros v I. exact (H v I). Qed.
Variable sin cos : f32 -> f32.
Lemma target_built h : exists m, build_hit_target_mesh_unchecked sin cos library h = Ok m /\ copy_of library (target_shape (HitTarget_target_type h)) (target_vertex sin cos h) = Ok m.
Proof. destruct (copy_ok (target_shape (HitTarget_target_type h)) (target_vertex sin cos h)) as (m & E & _). exists m. split; exact E. Qed.
Lemma spinner_built s : exists bracket plate, build_spinner_meshes sin cos library s = Ok (bracket, plate) /\ copy_of library Shape_SpinnerPlate (spinner_vertex sin cos s) = Ok plate /\
  match bracket with Some m => Spinner_show_bracket s = true /\ copy_of library Shape_SpinnerBracket (spinner_vertex sin cos s) = Ok m | None => Spinner_show_bracket s = false end.
Proof.
  destruct (copy_ok Shape_SpinnerBracket (spinner_vertex sin cos s)) as (m & E & _). destruct (copy_ok Shape_SpinnerPlate (spinner_vertex sin cos s)) as (n & D & _). unfold build_spinner_meshes. rewrite E, D.
  destruct (Spinner_show_bracket s); eexists _, _; (split; [reflexivity|]); auto.
Qed.
Lemma gate_built g : exists bracket wire, build_gate_meshes_unchecked sin cos library g = Ok (bracket, wire) /\ copy_of library (gate_shape (Gate_gate_type g)) (wire_vertex sin cos g) = Ok wire /\
  match bracket with Some m => Gate_show_bracket g = true /\ copy_of library Shape_GateBracket (bracket_vertex sin cos g) = Ok m | None => Gate_show_bracket g = false end.
Proof.
  destruct (copy_ok Shape_GateBracket (bracket_vertex sin cos g)) as (m & E & _). destruct (copy_ok (gate_shape (Gate_gate_type g)) (wire_vertex sin cos g)) as (n & D & _). unfold build_gate_meshes_unchecked. rewrite E, D.
  destruct (Gate_show_bracket g); eexists _, _; (split; [reflexivity|]); auto.
Qed.
Lemma kicker_built k : (Kicker_kicker_type k = KickerType_Invisible /\ build_kicker_meshes sin cos library k = Ok (None, None)) \/
  (Kicker_kicker_type k <> KickerType_Invisible /\ exists plate body, build_kicker_meshes sin cos library k = Ok (Some plate, Some body) /\ copy_of library Shape_KickerPlate (plate_vertex k) = Ok plate /\ copy_of library (fst (fst (body_of k))) (body_vertex sin cos k) = Ok body).
Proof.
  destruct (copy_ok Shape_KickerPlate (plate_vertex k)) as (m & E & _). destruct (copy_ok (fst (fst (body_of k))) (body_vertex sin cos k)) as (n & D & _). unfold build_kicker_meshes. rewrite E, D.
  destruct (Kicker_kicker_type k); try (left; split; reflexivity); right; (split; [discriminate|]); exists m, n; auto.
Qed.
Lemma trigger_built t : (Trigger_is_visible t = false \/ Trigger_shape t = TriggerShape_None) /\ build_trigger_mesh sin cos library t = Ok None \/
  (Trigger_is_visible t = true /\ Trigger_shape t <> TriggerShape_None) /\ exists s m, build_trigger_mesh sin cos library t = Ok (Some m) /\ trigger_shape (Trigger_shape t) = Some s /\ copy_of library s (trigger_vertex sin cos t) = Ok m.
Proof.
  unfold build_trigger_mesh. destruct (Trigger_is_visible t); cbn [negb]; [|left; auto]. destruct (trigger_shape (Trigger_shape t)) as [s|] eqn:E.
  - right. split; [split; [reflexivity|intros D; rewrite D in E; discriminate E]|]. destruct (copy_ok s (trigger_vertex sin cos t)) as (m & C & _). exists s, m. rewrite C. auto.
  - left. split; [right; destruct (Trigger_shape t); try discriminate E; reflexivity|reflexivity].
Qed.
End Library.

(** ** Which meshes there are *)
(** Invisible targets, gates and triggers have no mesh, and neither have triggers without a shape and invisible kickers; brackets are there if they are shown. A spinner has a plate whether it is visible or not. *)
Theorem C69_present : forall sin cos library, (forall s, sound_shape (library s)) ->
  (forall h, exists o, build_hit_target_mesh sin cos library h = Ok o /\ (o = None <-> HitTarget_is_visible h = false)) /\
  (forall g, exists o, build_gate_meshes sin cos library g = Ok o /\ (o = None <-> Gate_is_visible g = false) /\ (forall bracket wire, o = Some (bracket, wire) -> (bracket = None <-> Gate_show_bracket g = false))) /\
  (forall s, exists bracket plate, build_spinner_meshes sin cos library s = Ok (bracket, plate) /\ (bracket = None <-> Spinner_show_bracket s = false)) /\
  (forall k, exists plate body, build_kicker_meshes sin cos library k = Ok (plate, body) /\ (plate = None <-> Kicker_kicker_type k = KickerType_Invisible) /\ (body = None <-> Kicker_kicker_type k = KickerType_Invisible)) /\
  (forall t, exists o, build_trigger_mesh sin cos library t = Ok o /\ (o = None <-> Trigger_is_visible t = false \/ Trigger_shape t = TriggerShape_None)).
Proof.
  intros sin cos library sound. split; [|split; [|split; [|split]]].
  - intros h. unfold build_hit_target_mesh. destruct (target_built library sound sin cos h) as (m & E & _). destruct (HitTarget_is_visible h); cbn [negb]; [rewrite E; exists (Some m)|exists None]; (split; [reflexivity|]); split; (discriminate || reflexivity).
  - intros g. unfold build_gate_meshes. destruct (gate_built library sound sin cos g) as (br & w & E & _ & B). destruct (Gate_is_visible g); cbn [negb]; [rewrite E; exists (Some (br, w))|exists None]; (split; [reflexivity|]); (split; [split; (discriminate || reflexivity)|]).
    + intros bracket wire [= <- <-]. destruct br; [destruct B as [B _]|]; rewrite B; split; (discriminate || reflexivity).
    + intros bracket wire D. discriminate D.
  - intros s. destruct (spinner_built library sound sin cos s) as (br & p & E & _ & B). exists br, p. split; [exact E|]. destruct br; [destruct B as [B _]|]; rewrite B; split; (discriminate || reflexivity).
  - intros k. destruct (kicker_built library sound sin cos k) as [[T E]|[T (p & b & E & _)]]; eexists _, _; (split; [exact E|]); [rewrite T; split; split; reflexivity|]. split; (split; [discriminate|intros D; contradiction (T D)]).
  - intros t. destruct (trigger_built library sound sin cos t) as [[T E]|[[V T] (s & m & E & _)]]; eexists; (split; [exact E|]); [split; auto|]. split; [discriminate|intros [D|D]; [rewrite V in D; discriminate D|contradiction (T D)]].
Qed.
Print Assumptions C69_present.

(** ** Copies *)
(** Every mesh has the triangles of the shape for its type and as many vertices, and keeps the texture coordinates; only the plate of a kicker has none. A gate of another type, or of none, is a wire. *)
Theorem C69_copies : forall sin cos library, (forall s, sound_shape (library s)) ->
  (forall h m, build_hit_target_mesh sin cos library h = Ok (Some m) -> exists s, In (HitTarget_target_type h, s) targets /\ copy (library s) m) /\
  (forall g bracket wire, build_gate_meshes sin cos library g = Ok (Some (bracket, wire)) ->
     (forall m, bracket = Some m -> copy (library Shape_GateBracket) m) /\
     (forall t s, Gate_gate_type g = Some t -> In (t, s) gates -> copy (library s) wire) /\
     (forall t, Gate_gate_type g = t -> (forall t', t = Some t' -> ~ In t' (map fst gates)) -> copy (library Shape_GateWire) wire)) /\
  (forall s bracket plate, build_spinner_meshes sin cos library s = Ok (bracket, plate) -> (forall m, bracket = Some m -> copy (library Shape_SpinnerBracket) m) /\ copy (library Shape_SpinnerPlate) plate) /\
  (forall k plate body, build_kicker_meshes sin cos library k = Ok (Some plate, Some body) ->
     same_triangles (library Shape_KickerPlate) plate /\ Forall (fun w => v_tu (w_vertex w) = f32_zero /\ v_tv (w_vertex w) = f32_zero) (fst plate) /\
     exists s, In (Kicker_kicker_type k, s) kickers /\ copy (library s) body) /\
  (forall t m, build_trigger_mesh sin cos library t = Ok (Some m) -> exists s, In (Trigger_shape t, s) triggers /\ copy (library s) m).
Proof.
  intros sin cos library sound. split; [|split; [|split; [|split]]].
  - intros h m. unfold build_hit_target_mesh. destruct (target_built library sound sin cos h) as (m' & E & C). destruct (HitTarget_is_visible h); cbn [negb]; [|discriminate]. rewrite E. intros [= <-].
    exists (target_shape (HitTarget_target_type h)). split; [destruct (HitTarget_target_type h); cbn; tauto|]. exact (copy_place library sound _ _ _ _ C).
  - intros g bracket wire. unfold build_gate_meshes. destruct (gate_built library sound sin cos g) as (br & w & E & C & B). destruct (Gate_is_visible g); cbn [negb]; [|discriminate]. rewrite E. intros [= <- <-]. apply (copy_place library sound _ _ _ _) in C. split; [|split].
    + intros m ->. destruct B as [_ B]. exact (copy_place library sound _ _ _ _ B).
    + intros t s Ht I. rewrite Ht in C. cbn [gates In] in I. repeat destruct I as [[= <- <-]|I]; try contradiction; exact C.
    + intros t Ht N. rewrite Ht in C. destruct t as [t|]; [|exact C]. specialize (N t eq_refl). destruct t; try exact C; exfalso; apply N; cbn; tauto.
  - intros s bracket plate. destruct (spinner_built library sound sin cos s) as (br & p & E & C & B). rewrite E. intros [= <- <-]. split; [|exact (copy_place library sound _ _ _ _ C)]. intros m ->. destruct B as [_ B]. exact (copy_place library sound _ _ _ _ B).
  - intros k plate body. destruct (kicker_built library sound sin cos k) as [[T E]|[T (p & b & E & CP & CB)]]; rewrite E; [discriminate|]. intros [= <- <-].
    destruct (copy_ok library sound Shape_KickerPlate (plate_vertex k)) as (p' & E' & ST & F). rewrite CP in E'. injection E' as <-. split; [exact ST|]. split.
    + rewrite F. apply Forall_forall. intros w I. apply in_map_iff in I. destruct I as (v & <- & _). split; reflexivity.
    + exists (fst (fst (body_of k))). split; [unfold body_of; destruct (Kicker_kicker_type k); try (contradiction (T eq_refl)); cbn; tauto|].
      destruct (copy_ok library sound (fst (fst (body_of k))) (body_vertex sin cos k)) as (b' & E' & SB & FB). rewrite CB in E'. injection E' as <-. split; [exact SB|]. unfold same_picture. rewrite FB. apply Forall2_mapped. intros v _. unfold body_vertex. destruct (body_of k) as [[? ?] ?]. split; reflexivity.
  - intros t m. destruct (trigger_built library sound sin cos t) as [[T E]|[_ (s & m' & E & S & C)]]; rewrite E; [discriminate|]. intros [= <-]. exists s. split; [destruct (Trigger_shape t); try discriminate S; injection S as <-; cbn; tauto|].
    destruct (copy_ok library sound s (trigger_vertex sin cos t)) as (b' & E' & SB & FB). rewrite C in E'. injection E' as <-. split; [exact SB|]. unfold same_picture. rewrite FB. apply Forall2_mapped. intros v _. split; reflexivity.
Qed.
Print Assumptions C69_copies.

(** ** Places *)
(** With angles in degrees that are turned into radians and given to sine and cosine, the places of the vertices are, up to rounding, those of the shape after these changes:
    the target is scaled to its size and then turned; spinners and brackets of gates are turned and scaled by their length; the wire of a gate is only turned; the plate of a kicker is scaled, its body raised, turned and scaled;
    a star or a button is turned, scaled by its radius and raised. The normals of targets, spinners and kickers are turned as well. *)
Theorem C69_places : forall sin cos library b size, (forall s, sound_shape (library s)) -> (forall s, shape_up_to b (library s)) -> bounded_function sin -> bounded_function cos -> (1 <= b <= 1024)%R -> (1 <= size <= 1048576)%R ->
  (forall h m, build_hit_target_mesh sin cos library h = Ok (Some m) -> moderate (HitTarget_rot_z h) -> Forall (up_to size) [v3_x (HitTarget_size h); v3_y (HitTarget_size h); v3_z (HitTarget_size h)] ->
     exists s, In (HitTarget_target_type h, s) targets /\
       changed place_in (fun p => turned_about_z sin cos (HitTarget_rot_z h) (scaled_by (real (v3_x (HitTarget_size h))) (real (v3_y (HitTarget_size h))) (real (v3_z (HitTarget_size h))) p)) (b * size / 1000000) (library s) m /\
       changed normal_of (turned_about_z sin cos (HitTarget_rot_z h)) (b / 1000000) (library s) m) /\
  (forall g bracket wire, build_gate_meshes sin cos library g = Ok (Some (bracket, wire)) -> moderate (Gate_rotation g) -> up_to size (Gate_length g) ->
     (forall m, bracket = Some m -> changed place_in (fun p => let l := real (Gate_length g) in scaled_by l l l (turned_about_z sin cos (Gate_rotation g) p)) (b * size / 1000000) (library Shape_GateBracket) m) /\
     (forall t s, Gate_gate_type g = Some t -> In (t, s) gates -> changed place_in (turned_about_z sin cos (Gate_rotation g)) (b / 1000000) (library s) wire)) /\
  (forall s bracket plate, build_spinner_meshes sin cos library s = Ok (bracket, plate) -> moderate (Spinner_rotation s) -> up_to size (Spinner_length s) ->
     let move := fun p => let l := real (Spinner_length s) in scaled_by l l l (turned_about_z sin cos (Spinner_rotation s) p) in
     (forall m, bracket = Some m -> changed place_in move (b * size / 1000000) (library Shape_SpinnerBracket) m /\ changed normal_of (turned_about_z sin cos (Spinner_rotation s)) (b / 1000000) (library Shape_SpinnerBracket) m) /\
     changed place_in move (b * size / 1000000) (library Shape_SpinnerPlate) plate /\ changed normal_of (turned_about_z sin cos (Spinner_rotation s)) (b / 1000000) (library Shape_SpinnerPlate) plate) /\
  (forall k plate body, build_kicker_meshes sin cos library k = Ok (Some plate, Some body) -> moderate (body_angle k) -> up_to size (Kicker_radius k) ->
     changed place_in (fun p => let r := (real (Kicker_radius k) * plate_factor k)%R in scaled_by r r r p) (b * size / 1000000) (library Shape_KickerPlate) plate /\
     exists s, In (Kicker_kicker_type k, s) kickers /\
       changed place_in (fun p => let r := real (Kicker_radius k) in scaled_by r r r (turned_about_z sin cos (body_angle k) (raised_by (body_rise k) p))) (b * size / 400000) (library s) body /\
       changed normal_of (turned_about_z sin cos (body_angle k)) (b / 1000000) (library s) body) /\
  (forall t m, build_trigger_mesh sin cos library t = Ok (Some m) -> In (Trigger_shape t) [TriggerShape_Star; TriggerShape_Button] -> moderate (Trigger_rotation t) -> up_to size (Trigger_radius t) ->
     exists s, In (Trigger_shape t, s) triggers /\
       changed place_in (fun p => let r := real (Trigger_radius t) in raised_by (star_rise t) (scaled_by r r r (turned_about_z sin cos (Trigger_rotation t) p))) (b * size / 100000) (library s) m).
Proof.
  intros sin cos library b size sound UP BS BC LB LS. assert (UV : forall s v, In v (fst (library s)) -> Forall (up_to b) (coordinates_of v)) by (intros s v I; specialize (UP s); unfold shape_up_to in UP; rewrite Forall_forall in UP; exact (UP v I)).
  split; [|split; [|split; [|split]]].
  - intros h m. unfold build_hit_target_mesh. destruct (target_built library sound sin cos h) as (m' & E & C). destruct (HitTarget_is_visible h); cbn [negb]; [|discriminate]. rewrite E. intros [= <-] M US.
    exists (target_shape (HitTarget_target_type h)). split; [destruct (HitTarget_target_type h); cbn; tauto|]. split; (apply (copy_changed library sound _ _ _ _ _ _ C)); intros v I.
    + rewrite Forall_forall in US. apply (target_place sin cos BS BC b size LB LS v (UV _ v I) h M); apply US; cbn [In]; tauto.
    + exact (proj1 (normal_turned sin cos BS BC b LB v (UV _ v I) _ _ M)).
  - intros g bracket wire. unfold build_gate_meshes. destruct (gate_built library sound sin cos g) as (br & w & E & C & B). destruct (Gate_is_visible g); cbn [negb]; [|discriminate]. rewrite E. intros [= <- <-] M UL. split.
    + intros m ->. destruct B as [_ B]. apply (copy_changed library sound _ _ _ _ _ _ B). intros v I. exact (bracket_place sin cos BS BC b size LB LS v (UV _ v I) g M UL).
    + intros t s Ht I. assert (G : gate_shape (Gate_gate_type g) = s) by (rewrite Ht; cbn [gates In] in I; repeat destruct I as [[= <- <-]|I]; try contradiction; reflexivity). rewrite G in C.
      apply (copy_changed library sound _ _ _ _ _ _ C). intros v V. exact (wire_place sin cos BS BC b LB v (UV _ v V) g M).
  - intros s bracket plate. destruct (spinner_built library sound sin cos s) as (br & p & E & C & B). rewrite E. intros [= <- <-] M UL. cbv zeta. split; [intros m ->; destruct B as [_ B]|].
    + split; apply (copy_changed library sound _ _ _ _ _ _ B); intros v I; [exact (spinner_place sin cos BS BC b size LB LS v (UV _ v I) s M UL)|exact (proj1 (normal_turned sin cos BS BC b LB v (UV _ v I) _ _ M))].
    + split; apply (copy_changed library sound _ _ _ _ _ _ C); intros v I; [exact (spinner_place sin cos BS BC b size LB LS v (UV _ v I) s M UL)|exact (proj1 (normal_turned sin cos BS BC b LB v (UV _ v I) _ _ M))].
  - intros k plate body. destruct (kicker_built library sound sin cos k) as [[T E]|[T (p & bo & E & CP & CB)]]; rewrite E; [discriminate|]. intros [= <- <-] M UR. split.
    + apply (copy_changed library sound _ _ _ _ _ _ CP). intros v I. exact (plate_place b size LB LS v (UV _ v I) k UR).
    + exists (fst (fst (body_of k))). split; [unfold body_of; destruct (Kicker_kicker_type k); try (contradiction (T eq_refl)); cbn; tauto|].
      split; apply (copy_changed library sound _ _ _ _ _ _ CB); intros v I; destruct (body_place sin cos BS BC b size LB LS v (UV _ v I) k M UR) as [H1 H2]; assumption.
  - intros t m. destruct (trigger_built library sound sin cos t) as [[T E]|[_ (s & m' & E & S & C)]]; rewrite E; [discriminate|]. intros [= <-] K M UR. exists s. split; [destruct (Trigger_shape t); try discriminate S; injection S as <-; cbn; tauto|].
    assert (BR : by_radius (Trigger_shape t) = true) by (cbn [In] in K; destruct K as [K|[K|[]]]; rewrite <- K; reflexivity).
    apply (copy_changed library sound _ _ _ _ _ _ C). intros v I. exact (star_place sin cos BS BC b size LB LS v (UV _ v I) t BR M UR).
Qed.
Print Assumptions C69_places.

(** ** Cases *)
(** A library with a pyramid for every shape, a visible gate with a bracket that is turned a quarter, a cup, and a button *)
Definition pyramid : list Vtx * list Z :=
  (map (fun '(x, y, z) => mkVtx (int32 x) (int32 y) (int32 z) f32_zero f32_zero f32_one (int32 x) (int32 y)) [(0, 0, 0); (1, 0, 0); (0, 1, 0); (0, 0, 1)], [0; 1; 2; 0; 1; 3; 1; 2; 3; 0; 2; 3]).
Definition pyramids (s : Shape) : list Vtx * list Z := pyramid.
Definition quarter_gate : Gate := set_Gate_gate_type (Some GateType_Plate) (set_Gate_rotation (int32 90) (set_Gate_length (int32 100) (set_Gate_is_visible true (set_Gate_show_bracket true Gate_default)))).
Definition a_cup : Kicker := set_Kicker_kicker_type KickerType_Williams (set_Kicker_radius (int32 25) Kicker_default).
Definition a_button : Trigger := set_Trigger_shape TriggerShape_Button (set_Trigger_radius (int32 25) (set_Trigger_rotation f32_zero (set_Trigger_is_visible true Trigger_default))).
Example C69_present_case : forall s, sound_shape (pyramids s).
Proof. intros s. split; [reflexivity|]. unfold pyramids, pyramid. cbn [fst snd map]. repeat (apply Forall_cons; [split; [discriminate|reflexivity]|]). apply Forall_nil. Qed.
Definition size_of (o : option shape_mesh) : option (Z * Z) := match o with Some (vs, fs) => Some (zlen vs, zlen fs) | None => None end.
Example C69_copies_case :
  match build_gate_meshes quarter_sin quarter_cos pyramids quarter_gate with Ok (Some (b, w)) => Some (size_of b, size_of (Some w)) | _ => None end = Some (Some (4, 4), Some (4, 4)) /\
  match build_kicker_meshes quarter_sin quarter_cos pyramids a_cup with Ok (p, b) => Some (size_of p, size_of b) | _ => None end = Some (Some (4, 4), Some (4, 4)) /\
  match build_trigger_mesh quarter_sin quarter_cos pyramids a_button with Ok o => size_of o | _ => None end = Some (4, 4) /\
  match build_hit_target_mesh quarter_sin quarter_cos pyramids HitTarget_default with Ok o => size_of o | _ => None end = Some (4, 4).
Proof. vm_compute. auto. Qed.
(** The bracket's second corner, at one on the first axis, comes to a hundred on the second *)
Example C69_places_case :
  match build_gate_meshes quarter_sin quarter_cos pyramids quarter_gate with Ok (Some (Some (_ :: w :: _, _), _)) => map exact [v_x (w_vertex w); v_y (w_vertex w); v_z (w_vertex w)] | _ => [] end = map exact [f32_zero; int32 100; f32_zero] /\
  moderate (Gate_rotation quarter_gate) /\ moderate (body_angle a_cup) /\ moderate (Trigger_rotation a_button) /\ bounded_function quarter_sin /\ bounded_function quarter_cos.
Proof.
  split; [vm_compute; reflexivity|]. split; [split; vm_compute; (exact I || discriminate)|]. split; [split; vm_compute; (exact I || discriminate)|]. split; [split; vm_compute; (exact I || discriminate)|].
  destruct C67_turned_case as (A & B & _). auto.
Qed.
Lemma up_to_whole x n : finite32 x -> Z.abs (exact x) <= n * 2 ^ 149 -> up_to (IZR n) x.
Proof.
  intros F H. split; [exact F|]. unfold real. assert (D : (0 < IZR (2 ^ 149))%R) by (apply (IZR_lt 0); lia). revert H D. generalize (2 ^ 149) as d. intros d H D. apply IZR_le in H. rewrite mult_IZR, abs_IZR in H.
  unfold Rdiv. rewrite Rabs_mult, Rabs_inv, (Rabs_pos_eq (IZR d)) by lra. apply (Rmult_le_reg_r (IZR d)); [exact D|]. rewrite Rmult_assoc, Rinv_l by lra. lra.
Qed.
Example C69_places_sizes : (forall s, shape_up_to 1 (pyramids s)) /\ up_to 100 (Gate_length quarter_gate) /\ up_to 100 (Kicker_radius a_cup) /\ up_to 100 (Trigger_radius a_button).
Proof.
  assert (N : forall n z, In z [0; 1; 25; 100] -> z <= n -> up_to (IZR n) (int32 z)).
  { intros n z Z L. assert (E : finite32 (int32 z) /\ Z.abs (exact (int32 z)) = z * 2 ^ 149) by (cbn [In] in Z; repeat destruct Z as [<-|Z]; try contradiction; (split; [exact I|vm_compute; reflexivity])).
    destruct E as [F E]. apply up_to_whole; [exact F|]. rewrite E. apply Z.mul_le_mono_nonneg_r; [vm_compute; discriminate|exact L]. }
  split; [|split; [apply N; [cbn; tauto|lia]|split; apply N; try (cbn; tauto); lia]].
  intros s. unfold shape_up_to, pyramids, pyramid. cbn [fst map]. repeat (apply Forall_cons; [|]); try apply Forall_nil; unfold coordinates_of; cbn [v_x v_y v_z v_nx v_ny v_nz]; repeat (apply Forall_cons; [|]); try apply Forall_nil;
    lazymatch goal with
    | |- up_to _ f32_zero => apply (up_to_whole f32_zero 1); [exact I|vm_compute; discriminate]
    | |- up_to _ f32_one => apply (up_to_whole f32_one 1); [exact I|vm_compute; discriminate]
    | |- _ => apply N; [cbn; tauto|lia]
    end.
Qed.
(** Without the triangles, there would be a panic *)
Example C69_sound_needed : build_spinner_meshes quarter_sin quarter_cos (fun _ => (fst pyramid, [0; 1])) Spinner_default = Panic.
Proof. reflexivity. Qed.

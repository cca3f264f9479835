(** Facts about the enumerations.  Generated by tools/gen_enums.py. *)
From Verif Require Import Base Enums BaseFacts.

(** DecalType *)
Lemma DecalType_roundtrip e : DecalType_of_u32 (DecalType_to_u32 e) = Ok e.
Proof. destruct e; reflexivity. Qed.
Lemma DecalType_no_oof x : DecalType_of_u32 x <> OutOfFuel.
Proof.
  unfold DecalType_of_u32. cbv zeta. repeat match goal with |- context [if ?c then _ else _] => destruct c end; discriminate.
Qed.
#[export] Hint Resolve DecalType_no_oof : core.
Lemma DecalType_unknown x : ~ In (w32_to_Z x) [0; 1] -> DecalType_of_u32 x = Panic.
Proof.
  intros H. unfold DecalType_of_u32. cbv zeta.
  repeat match goal with |- context [if ?c then _ else _] => destruct c eqn:?; [exfalso; apply H; cbn [In]; lia|] end; reflexivity.
Qed.
Lemma DecalType_known x : In (w32_to_Z x) [0; 1] -> exists e, DecalType_of_u32 x = Ok e /\ DecalType_to_u32 e = x.
Proof.
  intros H. unfold DecalType_of_u32. cbv zeta.
  repeat match goal with |- context [if ?c then _ else _] => destruct c eqn:?;
    [eexists; split; [reflexivity|]; rewrite <- (Z_to_w32_to_Z x); cbn [DecalType_to_u32]; f_equal; lia|] end.
  exfalso. cbn [In] in H. lia.
Qed.
Lemma DecalType_json e : DecalType_of_json (DecalType_to_json e) = Ok e.
Proof. destruct e; reflexivity. Qed.

(** SizingType *)
Lemma SizingType_roundtrip e : SizingType_of_u32 (SizingType_to_u32 e) = Ok e.
Proof. destruct e; reflexivity. Qed.
Lemma SizingType_no_oof x : SizingType_of_u32 x <> OutOfFuel.
Proof.
  unfold SizingType_of_u32. cbv zeta. repeat match goal with |- context [if ?c then _ else _] => destruct c end; discriminate.
Qed.
#[export] Hint Resolve SizingType_no_oof : core.
Lemma SizingType_unknown x : ~ In (w32_to_Z x) [0; 1; 2] -> SizingType_of_u32 x = Panic.
Proof.
  intros H. unfold SizingType_of_u32. cbv zeta.
  repeat match goal with |- context [if ?c then _ else _] => destruct c eqn:?; [exfalso; apply H; cbn [In]; lia|] end; reflexivity.
Qed.
Lemma SizingType_known x : In (w32_to_Z x) [0; 1; 2] -> exists e, SizingType_of_u32 x = Ok e /\ SizingType_to_u32 e = x.
Proof.
  intros H. unfold SizingType_of_u32. cbv zeta.
  repeat match goal with |- context [if ?c then _ else _] => destruct c eqn:?;
    [eexists; split; [reflexivity|]; rewrite <- (Z_to_w32_to_Z x); cbn [SizingType_to_u32]; f_equal; lia|] end.
  exfalso. cbn [In] in H. lia.
Qed.
Lemma SizingType_json e : SizingType_of_json (SizingType_to_json e) = Ok e.
Proof. destruct e; reflexivity. Qed.

(** Filter *)
Lemma Filter_roundtrip e : Filter_of_u32 (Filter_to_u32 e) = Ok e.
Proof. destruct e; reflexivity. Qed.
Lemma Filter_no_oof x : Filter_of_u32 x <> OutOfFuel.
Proof.
  unfold Filter_of_u32. cbv zeta. repeat match goal with |- context [if ?c then _ else _] => destruct c end; discriminate.
Qed.
#[export] Hint Resolve Filter_no_oof : core.
Lemma Filter_unknown x : ~ In (w32_to_Z x) [0; 1; 2; 3; 4] -> Filter_of_u32 x = Panic.
Proof.
  intros H. unfold Filter_of_u32. cbv zeta.
  repeat match goal with |- context [if ?c then _ else _] => destruct c eqn:?; [exfalso; apply H; cbn [In]; lia|] end; reflexivity.
Qed.
Lemma Filter_known x : In (w32_to_Z x) [0; 1; 2; 3; 4] -> exists e, Filter_of_u32 x = Ok e /\ Filter_to_u32 e = x.
Proof.
  intros H. unfold Filter_of_u32. cbv zeta.
  repeat match goal with |- context [if ?c then _ else _] => destruct c eqn:?;
    [eexists; split; [reflexivity|]; rewrite <- (Z_to_w32_to_Z x); cbn [Filter_to_u32]; f_equal; lia|] end.
  exfalso. cbn [In] in H. lia.
Qed.
Lemma Filter_json e : Filter_of_json (Filter_to_json e) = Ok e.
Proof. destruct e; reflexivity. Qed.

(** RenderMode *)
Lemma RenderMode_roundtrip e : RenderMode_of_u32 (RenderMode_to_u32 e) = Ok e.
Proof. destruct e; reflexivity. Qed.
Lemma RenderMode_no_oof x : RenderMode_of_u32 x <> OutOfFuel.
Proof.
  unfold RenderMode_of_u32. cbv zeta. repeat match goal with |- context [if ?c then _ else _] => destruct c end; discriminate.
Qed.
#[export] Hint Resolve RenderMode_no_oof : core.
Lemma RenderMode_unknown x : ~ In (w32_to_Z x) [0; 1; 2; 3; 4] -> RenderMode_of_u32 x = Panic.
Proof.
  intros H. unfold RenderMode_of_u32. cbv zeta.
  repeat match goal with |- context [if ?c then _ else _] => destruct c eqn:?; [exfalso; apply H; cbn [In]; lia|] end; reflexivity.
Qed.
Lemma RenderMode_known x : In (w32_to_Z x) [0; 1; 2; 3; 4] -> exists e, RenderMode_of_u32 x = Ok e /\ RenderMode_to_u32 e = x.
Proof.
  intros H. unfold RenderMode_of_u32. cbv zeta.
  repeat match goal with |- context [if ?c then _ else _] => destruct c eqn:?;
    [eexists; split; [reflexivity|]; rewrite <- (Z_to_w32_to_Z x); cbn [RenderMode_to_u32]; f_equal; lia|] end.
  exfalso. cbn [In] in H. lia.
Qed.
Lemma RenderMode_json e : RenderMode_of_json (RenderMode_to_json e) = Ok e.
Proof. destruct e; reflexivity. Qed.

(** DmdStyle *)
Lemma DmdStyle_roundtrip e : DmdStyle_of_u32 (DmdStyle_to_u32 e) = Ok e.
Proof. destruct e; reflexivity. Qed.
Lemma DmdStyle_no_oof x : DmdStyle_of_u32 x <> OutOfFuel.
Proof.
  unfold DmdStyle_of_u32. cbv zeta. repeat match goal with |- context [if ?c then _ else _] => destruct c end; discriminate.
Qed.
#[export] Hint Resolve DmdStyle_no_oof : core.
Lemma DmdStyle_unknown x : ~ In (w32_to_Z x) [0; 1; 2; 3; 4; 5; 6] -> DmdStyle_of_u32 x = Panic.
Proof.
  intros H. unfold DmdStyle_of_u32. cbv zeta.
  repeat match goal with |- context [if ?c then _ else _] => destruct c eqn:?; [exfalso; apply H; cbn [In]; lia|] end; reflexivity.
Qed.
Lemma DmdStyle_known x : In (w32_to_Z x) [0; 1; 2; 3; 4; 5; 6] -> exists e, DmdStyle_of_u32 x = Ok e /\ DmdStyle_to_u32 e = x.
Proof.
  intros H. unfold DmdStyle_of_u32. cbv zeta.
  repeat match goal with |- context [if ?c then _ else _] => destruct c eqn:?;
    [eexists; split; [reflexivity|]; rewrite <- (Z_to_w32_to_Z x); cbn [DmdStyle_to_u32]; f_equal; lia|] end.
  exfalso. cbn [In] in H. lia.
Qed.

(** DisplayStyle *)
Lemma DisplayStyle_roundtrip e : DisplayStyle_of_u32 (DisplayStyle_to_u32 e) = Ok e.
Proof. destruct e; reflexivity. Qed.
Lemma DisplayStyle_no_oof x : DisplayStyle_of_u32 x <> OutOfFuel.
Proof.
  unfold DisplayStyle_of_u32. cbv zeta. repeat match goal with |- context [if ?c then _ else _] => destruct c end; discriminate.
Qed.
#[export] Hint Resolve DisplayStyle_no_oof : core.
Lemma DisplayStyle_unknown x : ~ In (w32_to_Z x) [0; 1; 2] -> DisplayStyle_of_u32 x = Panic.
Proof.
  intros H. unfold DisplayStyle_of_u32. cbv zeta.
  repeat match goal with |- context [if ?c then _ else _] => destruct c eqn:?; [exfalso; apply H; cbn [In]; lia|] end; reflexivity.
Qed.
Lemma DisplayStyle_known x : In (w32_to_Z x) [0; 1; 2] -> exists e, DisplayStyle_of_u32 x = Ok e /\ DisplayStyle_to_u32 e = x.
Proof.
  intros H. unfold DisplayStyle_of_u32. cbv zeta.
  repeat match goal with |- context [if ?c then _ else _] => destruct c eqn:?;
    [eexists; split; [reflexivity|]; rewrite <- (Z_to_w32_to_Z x); cbn [DisplayStyle_to_u32]; f_equal; lia|] end.
  exfalso. cbn [In] in H. lia.
Qed.

(** SegStyle *)
Lemma SegStyle_roundtrip e : SegStyle_of_u32 (SegStyle_to_u32 e) = Ok e.
Proof. destruct e; reflexivity. Qed.
Lemma SegStyle_no_oof x : SegStyle_of_u32 x <> OutOfFuel.
Proof.
  unfold SegStyle_of_u32. cbv zeta. repeat match goal with |- context [if ?c then _ else _] => destruct c end; discriminate.
Qed.
#[export] Hint Resolve SegStyle_no_oof : core.
Lemma SegStyle_unknown x : ~ In (w32_to_Z x) [0; 1; 2; 3; 4; 5; 6; 7] -> SegStyle_of_u32 x = Panic.
Proof.
  intros H. unfold SegStyle_of_u32. cbv zeta.
  repeat match goal with |- context [if ?c then _ else _] => destruct c eqn:?; [exfalso; apply H; cbn [In]; lia|] end; reflexivity.
Qed.
Lemma SegStyle_known x : In (w32_to_Z x) [0; 1; 2; 3; 4; 5; 6; 7] -> exists e, SegStyle_of_u32 x = Ok e /\ SegStyle_to_u32 e = x.
Proof.
  intros H. unfold SegStyle_of_u32. cbv zeta.
  repeat match goal with |- context [if ?c then _ else _] => destruct c eqn:?;
    [eexists; split; [reflexivity|]; rewrite <- (Z_to_w32_to_Z x); cbn [SegStyle_to_u32]; f_equal; lia|] end.
  exfalso. cbn [In] in H. lia.
Qed.

(** SegFamily *)
Lemma SegFamily_roundtrip e : SegFamily_of_u32 (SegFamily_to_u32 e) = Ok e.
Proof. destruct e; reflexivity. Qed.
Lemma SegFamily_no_oof x : SegFamily_of_u32 x <> OutOfFuel.
Proof.
  unfold SegFamily_of_u32. cbv zeta. repeat match goal with |- context [if ?c then _ else _] => destruct c end; discriminate.
Qed.
#[export] Hint Resolve SegFamily_no_oof : core.
Lemma SegFamily_unknown x : ~ In (w32_to_Z x) [0; 1; 2; 3; 4] -> SegFamily_of_u32 x = Panic.
Proof.
  intros H. unfold SegFamily_of_u32. cbv zeta.
  repeat match goal with |- context [if ?c then _ else _] => destruct c eqn:?; [exfalso; apply H; cbn [In]; lia|] end; reflexivity.
Qed.
Lemma SegFamily_known x : In (w32_to_Z x) [0; 1; 2; 3; 4] -> exists e, SegFamily_of_u32 x = Ok e /\ SegFamily_to_u32 e = x.
Proof.
  intros H. unfold SegFamily_of_u32. cbv zeta.
  repeat match goal with |- context [if ?c then _ else _] => destruct c eqn:?;
    [eexists; split; [reflexivity|]; rewrite <- (Z_to_w32_to_Z x); cbn [SegFamily_to_u32]; f_equal; lia|] end.
  exfalso. cbn [In] in H. lia.
Qed.

(** GateType *)
Lemma GateType_roundtrip e : GateType_ok e = true -> GateType_of_u32 (GateType_to_u32 e) = Ok e.
Proof.
  destruct e; try (intros; reflexivity). cbn [GateType_ok GateType_to_u32 existsb]. intros H.
  unfold GateType_of_u32. cbv zeta. repeat (destruct (_ =? _); [discriminate|]). reflexivity.
Qed.
Lemma GateType_of_ok x e : GateType_of_u32 x = Ok e -> GateType_ok e = true.
Proof.
  unfold GateType_of_u32. cbv zeta.
  repeat match goal with |- context [if ?c then _ else _] => destruct c eqn:? end; intros H; injection H as <-; try reflexivity.
  cbn [GateType_ok existsb]. repeat match goal with H : (_ =? _) = false |- _ => rewrite H; clear H end. reflexivity.
Qed.
Lemma GateType_no_oof x : GateType_of_u32 x <> OutOfFuel.
Proof.
  unfold GateType_of_u32. cbv zeta. repeat match goal with |- context [if ?c then _ else _] => destruct c end; discriminate.
Qed.
#[export] Hint Resolve GateType_no_oof : core.
Lemma GateType_unknown x : ~ In (w32_to_Z x) [1; 2; 3; 4] -> GateType_of_u32 x = Ok (GateType_Unknown x).
Proof.
  intros H. unfold GateType_of_u32. cbv zeta.
  repeat match goal with |- context [if ?c then _ else _] => destruct c eqn:?; [exfalso; apply H; cbn [In]; lia|] end; reflexivity.
Qed.
Lemma GateType_known x : In (w32_to_Z x) [1; 2; 3; 4] -> exists e, GateType_of_u32 x = Ok e /\ GateType_to_u32 e = x.
Proof.
  intros H. unfold GateType_of_u32. cbv zeta.
  repeat match goal with |- context [if ?c then _ else _] => destruct c eqn:?;
    [eexists; split; [reflexivity|]; rewrite <- (Z_to_w32_to_Z x); cbn [GateType_to_u32]; f_equal; lia|] end.
  exfalso. cbn [In] in H. lia.
Qed.
Lemma GateType_json e : GateType_ok e = true -> GateType_of_json (GateType_to_json e) = Ok e.
Proof.
  intros H. destruct e; try reflexivity. cbn [GateType_to_json GateType_of_json].
  pose proof (w32_to_Z_range n). replace (w32_to_Z n <? 4294967296) with true by lia.
  rewrite Z_to_w32_to_Z. apply (GateType_roundtrip _ H).
Qed.

(** TargetType *)
Lemma TargetType_roundtrip e : TargetType_of_u32 (TargetType_to_u32 e) = Ok e.
Proof. destruct e; reflexivity. Qed.
Lemma TargetType_no_oof x : TargetType_of_u32 x <> OutOfFuel.
Proof.
  unfold TargetType_of_u32. cbv zeta. repeat match goal with |- context [if ?c then _ else _] => destruct c end; discriminate.
Qed.
#[export] Hint Resolve TargetType_no_oof : core.
Lemma TargetType_unknown x : ~ In (w32_to_Z x) [1; 2; 3; 4; 5; 6; 7; 8; 9] -> TargetType_of_u32 x = Panic.
Proof.
  intros H. unfold TargetType_of_u32. cbv zeta.
  repeat match goal with |- context [if ?c then _ else _] => destruct c eqn:?; [exfalso; apply H; cbn [In]; lia|] end; reflexivity.
Qed.
Lemma TargetType_known x : In (w32_to_Z x) [1; 2; 3; 4; 5; 6; 7; 8; 9] -> exists e, TargetType_of_u32 x = Ok e /\ TargetType_to_u32 e = x.
Proof.
  intros H. unfold TargetType_of_u32. cbv zeta.
  repeat match goal with |- context [if ?c then _ else _] => destruct c eqn:?;
    [eexists; split; [reflexivity|]; rewrite <- (Z_to_w32_to_Z x); cbn [TargetType_to_u32]; f_equal; lia|] end.
  exfalso. cbn [In] in H. lia.
Qed.
Lemma TargetType_json e : TargetType_of_json (TargetType_to_json e) = Ok e.
Proof. destruct e; reflexivity. Qed.

(** KickerType *)
Lemma KickerType_roundtrip e : KickerType_of_u32 (KickerType_to_u32 e) = Ok e.
Proof. destruct e; reflexivity. Qed.
Lemma KickerType_no_oof x : KickerType_of_u32 x <> OutOfFuel.
Proof.
  unfold KickerType_of_u32. cbv zeta. repeat match goal with |- context [if ?c then _ else _] => destruct c end; discriminate.
Qed.
#[export] Hint Resolve KickerType_no_oof : core.
Lemma KickerType_unknown x : ~ In (w32_to_Z x) [0; 1; 2; 3; 4; 5; 6] -> KickerType_of_u32 x = Panic.
Proof.
  intros H. unfold KickerType_of_u32. cbv zeta.
  repeat match goal with |- context [if ?c then _ else _] => destruct c eqn:?; [exfalso; apply H; cbn [In]; lia|] end; reflexivity.
Qed.
Lemma KickerType_known x : In (w32_to_Z x) [0; 1; 2; 3; 4; 5; 6] -> exists e, KickerType_of_u32 x = Ok e /\ KickerType_to_u32 e = x.
Proof.
  intros H. unfold KickerType_of_u32. cbv zeta.
  repeat match goal with |- context [if ?c then _ else _] => destruct c eqn:?;
    [eexists; split; [reflexivity|]; rewrite <- (Z_to_w32_to_Z x); cbn [KickerType_to_u32]; f_equal; lia|] end.
  exfalso. cbn [In] in H. lia.
Qed.
Lemma KickerType_json e : KickerType_of_json (KickerType_to_json e) = Ok e.
Proof. destruct e; reflexivity. Qed.

(** ShadowMode *)
Lemma ShadowMode_roundtrip e : ShadowMode_of_u32 (ShadowMode_to_u32 e) = Ok e.
Proof. destruct e; reflexivity. Qed.
Lemma ShadowMode_no_oof x : ShadowMode_of_u32 x <> OutOfFuel.
Proof.
  unfold ShadowMode_of_u32. cbv zeta. repeat match goal with |- context [if ?c then _ else _] => destruct c end; discriminate.
Qed.
#[export] Hint Resolve ShadowMode_no_oof : core.
Lemma ShadowMode_unknown x : ~ In (w32_to_Z x) [0; 1] -> ShadowMode_of_u32 x = Panic.
Proof.
  intros H. unfold ShadowMode_of_u32. cbv zeta.
  repeat match goal with |- context [if ?c then _ else _] => destruct c eqn:?; [exfalso; apply H; cbn [In]; lia|] end; reflexivity.
Qed.
Lemma ShadowMode_known x : In (w32_to_Z x) [0; 1] -> exists e, ShadowMode_of_u32 x = Ok e /\ ShadowMode_to_u32 e = x.
Proof.
  intros H. unfold ShadowMode_of_u32. cbv zeta.
  repeat match goal with |- context [if ?c then _ else _] => destruct c eqn:?;
    [eexists; split; [reflexivity|]; rewrite <- (Z_to_w32_to_Z x); cbn [ShadowMode_to_u32]; f_equal; lia|] end.
  exfalso. cbn [In] in H. lia.
Qed.
Lemma ShadowMode_json e : ShadowMode_of_json (ShadowMode_to_json e) = Ok e.
Proof. destruct e; reflexivity. Qed.

(** Fader *)
Lemma Fader_roundtrip e : Fader_of_u32 (Fader_to_u32 e) = Ok e.
Proof. destruct e; reflexivity. Qed.
Lemma Fader_no_oof x : Fader_of_u32 x <> OutOfFuel.
Proof.
  unfold Fader_of_u32. cbv zeta. repeat match goal with |- context [if ?c then _ else _] => destruct c end; discriminate.
Qed.
#[export] Hint Resolve Fader_no_oof : core.
Lemma Fader_unknown x : ~ In (w32_to_Z x) [0; 1; 2] -> Fader_of_u32 x = Panic.
Proof.
  intros H. unfold Fader_of_u32. cbv zeta.
  repeat match goal with |- context [if ?c then _ else _] => destruct c eqn:?; [exfalso; apply H; cbn [In]; lia|] end; reflexivity.
Qed.
Lemma Fader_known x : In (w32_to_Z x) [0; 1; 2] -> exists e, Fader_of_u32 x = Ok e /\ Fader_to_u32 e = x.
Proof.
  intros H. unfold Fader_of_u32. cbv zeta.
  repeat match goal with |- context [if ?c then _ else _] => destruct c eqn:?;
    [eexists; split; [reflexivity|]; rewrite <- (Z_to_w32_to_Z x); cbn [Fader_to_u32]; f_equal; lia|] end.
  exfalso. cbn [In] in H. lia.
Qed.
Lemma Fader_json e : Fader_of_json (Fader_to_json e) = Ok e.
Proof. destruct e; reflexivity. Qed.

(** VisibilityMask *)
Lemma VisibilityMask_roundtrip e : VisibilityMask_of_u32 (VisibilityMask_to_u32 e) = Ok e.
Proof. destruct e; reflexivity. Qed.
Lemma VisibilityMask_no_oof x : VisibilityMask_of_u32 x <> OutOfFuel.
Proof.
  unfold VisibilityMask_of_u32. cbv zeta. repeat match goal with |- context [if ?c then _ else _] => destruct c end; discriminate.
Qed.
#[export] Hint Resolve VisibilityMask_no_oof : core.
Lemma VisibilityMask_unknown x : ~ In (w32_to_Z x) [1; 2; 4; 8; 16; 32; 64; 128] -> VisibilityMask_of_u32 x = Panic.
Proof.
  intros H. unfold VisibilityMask_of_u32. cbv zeta.
  repeat match goal with |- context [if ?c then _ else _] => destruct c eqn:?; [exfalso; apply H; cbn [In]; lia|] end; reflexivity.
Qed.
Lemma VisibilityMask_known x : In (w32_to_Z x) [1; 2; 4; 8; 16; 32; 64; 128] -> exists e, VisibilityMask_of_u32 x = Ok e /\ VisibilityMask_to_u32 e = x.
Proof.
  intros H. unfold VisibilityMask_of_u32. cbv zeta.
  repeat match goal with |- context [if ?c then _ else _] => destruct c eqn:?;
    [eexists; split; [reflexivity|]; rewrite <- (Z_to_w32_to_Z x); cbn [VisibilityMask_to_u32]; f_equal; lia|] end.
  exfalso. cbn [In] in H. lia.
Qed.

(** SpaceReference *)
Lemma SpaceReference_roundtrip e : SpaceReference_of_u32 (SpaceReference_to_u32 e) = Ok e.
Proof. destruct e; reflexivity. Qed.
Lemma SpaceReference_no_oof x : SpaceReference_of_u32 x <> OutOfFuel.
Proof.
  unfold SpaceReference_of_u32. cbv zeta. repeat match goal with |- context [if ?c then _ else _] => destruct c end; discriminate.
Qed.
#[export] Hint Resolve SpaceReference_no_oof : core.
Lemma SpaceReference_unknown x : ~ In (w32_to_Z x) [0; 1; 2; 3; 4] -> SpaceReference_of_u32 x = Panic.
Proof.
  intros H. unfold SpaceReference_of_u32. cbv zeta.
  repeat match goal with |- context [if ?c then _ else _] => destruct c eqn:?; [exfalso; apply H; cbn [In]; lia|] end; reflexivity.
Qed.
Lemma SpaceReference_known x : In (w32_to_Z x) [0; 1; 2; 3; 4] -> exists e, SpaceReference_of_u32 x = Ok e /\ SpaceReference_to_u32 e = x.
Proof.
  intros H. unfold SpaceReference_of_u32. cbv zeta.
  repeat match goal with |- context [if ?c then _ else _] => destruct c eqn:?;
    [eexists; split; [reflexivity|]; rewrite <- (Z_to_w32_to_Z x); cbn [SpaceReference_to_u32]; f_equal; lia|] end.
  exfalso. cbn [In] in H. lia.
Qed.
Lemma SpaceReference_json e : SpaceReference_of_json (SpaceReference_to_json e) = Ok e.
Proof. destruct e; reflexivity. Qed.

(** PlungerType *)
Lemma PlungerType_roundtrip e : PlungerType_of_u32 (PlungerType_to_u32 e) = Ok e.
Proof. destruct e; reflexivity. Qed.
Lemma PlungerType_no_oof x : PlungerType_of_u32 x <> OutOfFuel.
Proof.
  unfold PlungerType_of_u32. cbv zeta. repeat match goal with |- context [if ?c then _ else _] => destruct c end; discriminate.
Qed.
#[export] Hint Resolve PlungerType_no_oof : core.
Lemma PlungerType_unknown x : ~ In (w32_to_Z x) [0; 1; 2; 3] -> PlungerType_of_u32 x = Panic.
Proof.
  intros H. unfold PlungerType_of_u32. cbv zeta.
  repeat match goal with |- context [if ?c then _ else _] => destruct c eqn:?; [exfalso; apply H; cbn [In]; lia|] end; reflexivity.
Qed.
Lemma PlungerType_known x : In (w32_to_Z x) [0; 1; 2; 3] -> exists e, PlungerType_of_u32 x = Ok e /\ PlungerType_to_u32 e = x.
Proof.
  intros H. unfold PlungerType_of_u32. cbv zeta.
  repeat match goal with |- context [if ?c then _ else _] => destruct c eqn:?;
    [eexists; split; [reflexivity|]; rewrite <- (Z_to_w32_to_Z x); cbn [PlungerType_to_u32]; f_equal; lia|] end.
  exfalso. cbn [In] in H. lia.
Qed.
Lemma PlungerType_json e : PlungerType_of_json (PlungerType_to_json e) = Ok e.
Proof. destruct e; reflexivity. Qed.

(** RampType *)
Lemma RampType_roundtrip e : RampType_of_u32 (RampType_to_u32 e) = Ok e.
Proof. destruct e; reflexivity. Qed.
Lemma RampType_no_oof x : RampType_of_u32 x <> OutOfFuel.
Proof.
  unfold RampType_of_u32. cbv zeta. repeat match goal with |- context [if ?c then _ else _] => destruct c end; discriminate.
Qed.
#[export] Hint Resolve RampType_no_oof : core.
Lemma RampType_unknown x : ~ In (w32_to_Z x) [0; 1; 2; 3; 4; 5] -> RampType_of_u32 x = Panic.
Proof.
  intros H. unfold RampType_of_u32. cbv zeta.
  repeat match goal with |- context [if ?c then _ else _] => destruct c eqn:?; [exfalso; apply H; cbn [In]; lia|] end; reflexivity.
Qed.
Lemma RampType_known x : In (w32_to_Z x) [0; 1; 2; 3; 4; 5] -> exists e, RampType_of_u32 x = Ok e /\ RampType_to_u32 e = x.
Proof.
  intros H. unfold RampType_of_u32. cbv zeta.
  repeat match goal with |- context [if ?c then _ else _] => destruct c eqn:?;
    [eexists; split; [reflexivity|]; rewrite <- (Z_to_w32_to_Z x); cbn [RampType_to_u32]; f_equal; lia|] end.
  exfalso. cbn [In] in H. lia.
Qed.
Lemma RampType_json e : RampType_of_json (RampType_to_json e) = Ok e.
Proof. destruct e; reflexivity. Qed.

(** RampImageAlignment *)
Lemma RampImageAlignment_roundtrip e : RampImageAlignment_of_u32 (RampImageAlignment_to_u32 e) = Ok e.
Proof. destruct e; reflexivity. Qed.
Lemma RampImageAlignment_no_oof x : RampImageAlignment_of_u32 x <> OutOfFuel.
Proof.
  unfold RampImageAlignment_of_u32. cbv zeta. repeat match goal with |- context [if ?c then _ else _] => destruct c end; discriminate.
Qed.
#[export] Hint Resolve RampImageAlignment_no_oof : core.
Lemma RampImageAlignment_unknown x : ~ In (w32_to_Z x) [0; 1; 2] -> RampImageAlignment_of_u32 x = Panic.
Proof.
  intros H. unfold RampImageAlignment_of_u32. cbv zeta.
  repeat match goal with |- context [if ?c then _ else _] => destruct c eqn:?; [exfalso; apply H; cbn [In]; lia|] end; reflexivity.
Qed.
Lemma RampImageAlignment_known x : In (w32_to_Z x) [0; 1; 2] -> exists e, RampImageAlignment_of_u32 x = Ok e /\ RampImageAlignment_to_u32 e = x.
Proof.
  intros H. unfold RampImageAlignment_of_u32. cbv zeta.
  repeat match goal with |- context [if ?c then _ else _] => destruct c eqn:?;
    [eexists; split; [reflexivity|]; rewrite <- (Z_to_w32_to_Z x); cbn [RampImageAlignment_to_u32]; f_equal; lia|] end.
  exfalso. cbn [In] in H. lia.
Qed.
Lemma RampImageAlignment_json e : RampImageAlignment_of_json (RampImageAlignment_to_json e) = Ok e.
Proof. destruct e; reflexivity. Qed.

(** TextAlignment *)
Lemma TextAlignment_roundtrip e : TextAlignment_of_u32 (TextAlignment_to_u32 e) = Ok e.
Proof. destruct e; reflexivity. Qed.
Lemma TextAlignment_no_oof x : TextAlignment_of_u32 x <> OutOfFuel.
Proof.
  unfold TextAlignment_of_u32. cbv zeta. repeat match goal with |- context [if ?c then _ else _] => destruct c end; discriminate.
Qed.
#[export] Hint Resolve TextAlignment_no_oof : core.
Lemma TextAlignment_unknown x : ~ In (w32_to_Z x) [0; 1; 2] -> TextAlignment_of_u32 x = Panic.
Proof.
  intros H. unfold TextAlignment_of_u32. cbv zeta.
  repeat match goal with |- context [if ?c then _ else _] => destruct c eqn:?; [exfalso; apply H; cbn [In]; lia|] end; reflexivity.
Qed.
Lemma TextAlignment_known x : In (w32_to_Z x) [0; 1; 2] -> exists e, TextAlignment_of_u32 x = Ok e /\ TextAlignment_to_u32 e = x.
Proof.
  intros H. unfold TextAlignment_of_u32. cbv zeta.
  repeat match goal with |- context [if ?c then _ else _] => destruct c eqn:?;
    [eexists; split; [reflexivity|]; rewrite <- (Z_to_w32_to_Z x); cbn [TextAlignment_to_u32]; f_equal; lia|] end.
  exfalso. cbn [In] in H. lia.
Qed.
Lemma TextAlignment_json e : TextAlignment_of_json (TextAlignment_to_json e) = Ok e.
Proof. destruct e; reflexivity. Qed.

(** TriggerShape *)
Lemma TriggerShape_roundtrip e : TriggerShape_of_u32 (TriggerShape_to_u32 e) = Ok e.
Proof. destruct e; reflexivity. Qed.
Lemma TriggerShape_no_oof x : TriggerShape_of_u32 x <> OutOfFuel.
Proof.
  unfold TriggerShape_of_u32. cbv zeta. repeat match goal with |- context [if ?c then _ else _] => destruct c end; discriminate.
Qed.
#[export] Hint Resolve TriggerShape_no_oof : core.
Lemma TriggerShape_unknown x : ~ In (w32_to_Z x) [0; 1; 2; 3; 4; 5; 6; 7] -> TriggerShape_of_u32 x = Ok TriggerShape_WireA.
Proof.
  intros H. unfold TriggerShape_of_u32. cbv zeta.
  repeat match goal with |- context [if ?c then _ else _] => destruct c eqn:?; [exfalso; apply H; cbn [In]; lia|] end; reflexivity.
Qed.
Lemma TriggerShape_known x : In (w32_to_Z x) [0; 1; 2; 3; 4; 5; 6; 7] -> exists e, TriggerShape_of_u32 x = Ok e /\ TriggerShape_to_u32 e = x.
Proof.
  intros H. unfold TriggerShape_of_u32. cbv zeta.
  repeat match goal with |- context [if ?c then _ else _] => destruct c eqn:?;
    [eexists; split; [reflexivity|]; rewrite <- (Z_to_w32_to_Z x); cbn [TriggerShape_to_u32]; f_equal; lia|] end.
  exfalso. cbn [In] in H. lia.
Qed.
Lemma TriggerShape_json e : TriggerShape_of_json (TriggerShape_to_json e) = Ok e.
Proof. destruct e; reflexivity. Qed.

(** ViewLayoutMode *)
Lemma ViewLayoutMode_roundtrip e : ViewLayoutMode_of_u32 (ViewLayoutMode_to_u32 e) = Ok e.
Proof. destruct e; reflexivity. Qed.
Lemma ViewLayoutMode_no_oof x : ViewLayoutMode_of_u32 x <> OutOfFuel.
Proof.
  unfold ViewLayoutMode_of_u32. cbv zeta. repeat match goal with |- context [if ?c then _ else _] => destruct c end; discriminate.
Qed.
#[export] Hint Resolve ViewLayoutMode_no_oof : core.
Lemma ViewLayoutMode_unknown x : ~ In (w32_to_Z x) [0; 1; 2] -> ViewLayoutMode_of_u32 x = Panic.
Proof.
  intros H. unfold ViewLayoutMode_of_u32. cbv zeta.
  repeat match goal with |- context [if ?c then _ else _] => destruct c eqn:?; [exfalso; apply H; cbn [In]; lia|] end; reflexivity.
Qed.
Lemma ViewLayoutMode_known x : In (w32_to_Z x) [0; 1; 2] -> exists e, ViewLayoutMode_of_u32 x = Ok e /\ ViewLayoutMode_to_u32 e = x.
Proof.
  intros H. unfold ViewLayoutMode_of_u32. cbv zeta.
  repeat match goal with |- context [if ?c then _ else _] => destruct c eqn:?;
    [eexists; split; [reflexivity|]; rewrite <- (Z_to_w32_to_Z x); cbn [ViewLayoutMode_to_u32]; f_equal; lia|] end.
  exfalso. cbn [In] in H. lia.
Qed.
Lemma ViewLayoutMode_json e : ViewLayoutMode_of_json (ViewLayoutMode_to_json e) = Ok e.
Proof. destruct e; reflexivity. Qed.

(** ToneMapper *)
Lemma ToneMapper_roundtrip e : ToneMapper_ok e = true -> ToneMapper_of_u32 (ToneMapper_to_u32 e) = Ok e.
Proof.
  destruct e; try (intros; reflexivity). cbn [ToneMapper_ok ToneMapper_to_u32 existsb]. intros H.
  unfold ToneMapper_of_u32. cbv zeta. repeat (destruct (_ =? _); [discriminate|]). reflexivity.
Qed.
Lemma ToneMapper_of_ok x e : ToneMapper_of_u32 x = Ok e -> ToneMapper_ok e = true.
Proof.
  unfold ToneMapper_of_u32. cbv zeta.
  repeat match goal with |- context [if ?c then _ else _] => destruct c eqn:? end; intros H; injection H as <-; try reflexivity.
  cbn [ToneMapper_ok existsb]. repeat match goal with H : (_ =? _) = false |- _ => rewrite H; clear H end. reflexivity.
Qed.
Lemma ToneMapper_no_oof x : ToneMapper_of_u32 x <> OutOfFuel.
Proof.
  unfold ToneMapper_of_u32. cbv zeta. repeat match goal with |- context [if ?c then _ else _] => destruct c end; discriminate.
Qed.
#[export] Hint Resolve ToneMapper_no_oof : core.
Lemma ToneMapper_unknown x : ~ In (w32_to_Z x) [0; 1; 2; 3; 4] -> ToneMapper_of_u32 x = Ok (ToneMapper_Other x).
Proof.
  intros H. unfold ToneMapper_of_u32. cbv zeta.
  repeat match goal with |- context [if ?c then _ else _] => destruct c eqn:?; [exfalso; apply H; cbn [In]; lia|] end; reflexivity.
Qed.
Lemma ToneMapper_known x : In (w32_to_Z x) [0; 1; 2; 3; 4] -> exists e, ToneMapper_of_u32 x = Ok e /\ ToneMapper_to_u32 e = x.
Proof.
  intros H. unfold ToneMapper_of_u32. cbv zeta.
  repeat match goal with |- context [if ?c then _ else _] => destruct c eqn:?;
    [eexists; split; [reflexivity|]; rewrite <- (Z_to_w32_to_Z x); cbn [ToneMapper_to_u32]; f_equal; lia|] end.
  exfalso. cbn [In] in H. lia.
Qed.
Lemma ToneMapper_json e : ToneMapper_ok e = true -> ToneMapper_of_json (ToneMapper_to_json e) = Ok e.
Proof.
  intros H. destruct e; try reflexivity. cbn [ToneMapper_to_json ToneMapper_of_json].
  pose proof (w32_to_Z_range n). replace (w32_to_Z n <? 4294967296) with true by lia.
  rewrite Z_to_w32_to_Z. apply (ToneMapper_roundtrip _ H).
Qed.

(** MaterialType *)
Lemma MaterialType_roundtrip e : MaterialType_of_i32 (MaterialType_to_i32 e) = Ok e.
Proof. destruct e; reflexivity. Qed.
Lemma MaterialType_no_oof x : MaterialType_of_i32 x <> OutOfFuel.
Proof.
  unfold MaterialType_of_i32. cbv zeta. repeat match goal with |- context [if ?c then _ else _] => destruct c end; discriminate.
Qed.
#[export] Hint Resolve MaterialType_no_oof : core.
Lemma MaterialType_unknown x : ~ In (w32_to_Z x) [4294967295; 0; 1] -> MaterialType_of_i32 x = Panic.
Proof.
  intros H. unfold MaterialType_of_i32. cbv zeta.
  repeat match goal with |- context [if ?c then _ else _] => destruct c eqn:?; [exfalso; apply H; cbn [In]; lia|] end; reflexivity.
Qed.
Lemma MaterialType_known x : In (w32_to_Z x) [4294967295; 0; 1] -> exists e, MaterialType_of_i32 x = Ok e /\ MaterialType_to_i32 e = x.
Proof.
  intros H. unfold MaterialType_of_i32. cbv zeta.
  repeat match goal with |- context [if ?c then _ else _] => destruct c eqn:?;
    [eexists; split; [reflexivity|]; rewrite <- (Z_to_w32_to_Z x); cbn [MaterialType_to_i32]; f_equal; lia|] end.
  exfalso. cbn [In] in H. lia.
Qed.
Lemma MaterialType_json e : MaterialType_of_json (MaterialType_to_json e) = Ok e.
Proof. destruct e; reflexivity. Qed.

(** RenderProbeType *)
Lemma RenderProbeType_roundtrip e : RenderProbeType_of_u32 (RenderProbeType_to_u32 e) = Ok e.
Proof. destruct e; reflexivity. Qed.
Lemma RenderProbeType_no_oof x : RenderProbeType_of_u32 x <> OutOfFuel.
Proof.
  unfold RenderProbeType_of_u32. cbv zeta. repeat match goal with |- context [if ?c then _ else _] => destruct c end; discriminate.
Qed.
#[export] Hint Resolve RenderProbeType_no_oof : core.
Lemma RenderProbeType_unknown x : ~ In (w32_to_Z x) [0; 1] -> RenderProbeType_of_u32 x = Panic.
Proof.
  intros H. unfold RenderProbeType_of_u32. cbv zeta.
  repeat match goal with |- context [if ?c then _ else _] => destruct c eqn:?; [exfalso; apply H; cbn [In]; lia|] end; reflexivity.
Qed.
Lemma RenderProbeType_known x : In (w32_to_Z x) [0; 1] -> exists e, RenderProbeType_of_u32 x = Ok e /\ RenderProbeType_to_u32 e = x.
Proof.
  intros H. unfold RenderProbeType_of_u32. cbv zeta.
  repeat match goal with |- context [if ?c then _ else _] => destruct c eqn:?;
    [eexists; split; [reflexivity|]; rewrite <- (Z_to_w32_to_Z x); cbn [RenderProbeType_to_u32]; f_equal; lia|] end.
  exfalso. cbn [In] in H. lia.
Qed.
Lemma RenderProbeType_json e : RenderProbeType_of_json (RenderProbeType_to_json e) = Ok e.
Proof. destruct e; reflexivity. Qed.

(** ReflectionMode *)
Lemma ReflectionMode_roundtrip e : ReflectionMode_of_u32 (ReflectionMode_to_u32 e) = Ok e.
Proof. destruct e; reflexivity. Qed.
Lemma ReflectionMode_no_oof x : ReflectionMode_of_u32 x <> OutOfFuel.
Proof.
  unfold ReflectionMode_of_u32. cbv zeta. repeat match goal with |- context [if ?c then _ else _] => destruct c end; discriminate.
Qed.
#[export] Hint Resolve ReflectionMode_no_oof : core.
Lemma ReflectionMode_unknown x : ~ In (w32_to_Z x) [0; 1; 2; 3; 4; 5; 6] -> ReflectionMode_of_u32 x = Panic.
Proof.
  intros H. unfold ReflectionMode_of_u32. cbv zeta.
  repeat match goal with |- context [if ?c then _ else _] => destruct c eqn:?; [exfalso; apply H; cbn [In]; lia|] end; reflexivity.
Qed.
Lemma ReflectionMode_known x : In (w32_to_Z x) [0; 1; 2; 3; 4; 5; 6] -> exists e, ReflectionMode_of_u32 x = Ok e /\ ReflectionMode_to_u32 e = x.
Proof.
  intros H. unfold ReflectionMode_of_u32. cbv zeta.
  repeat match goal with |- context [if ?c then _ else _] => destruct c eqn:?;
    [eexists; split; [reflexivity|]; rewrite <- (Z_to_w32_to_Z x); cbn [ReflectionMode_to_u32]; f_equal; lia|] end.
  exfalso. cbn [In] in H. lia.
Qed.
Lemma ReflectionMode_json e : ReflectionMode_of_json (ReflectionMode_to_json e) = Ok e.
Proof. destruct e; reflexivity. Qed.

(** OutputTarget *)
Lemma OutputTarget_roundtrip e : OutputTarget_of_u8 (OutputTarget_to_u8 e) = Ok e.
Proof. destruct e; reflexivity. Qed.
Lemma OutputTarget_no_oof x : OutputTarget_of_u8 x <> OutOfFuel.
Proof.
  unfold OutputTarget_of_u8. cbv zeta. repeat match goal with |- context [if ?c then _ else _] => destruct c end; discriminate.
Qed.
#[export] Hint Resolve OutputTarget_no_oof : core.
Lemma OutputTarget_unknown x : ~ In (byte_to_Z x) [0; 1] -> OutputTarget_of_u8 x = Panic.
Proof.
  intros H. unfold OutputTarget_of_u8. cbv zeta.
  repeat match goal with |- context [if ?c then _ else _] => destruct c eqn:?; [exfalso; apply H; cbn [In]; lia|] end; reflexivity.
Qed.
Lemma OutputTarget_known x : In (byte_to_Z x) [0; 1] -> exists e, OutputTarget_of_u8 x = Ok e /\ OutputTarget_to_u8 e = x.
Proof.
  intros H. unfold OutputTarget_of_u8. cbv zeta.
  repeat match goal with |- context [if ?c then _ else _] => destruct c eqn:?;
    [eexists; split; [reflexivity|]; rewrite <- (Z_to_byte_to_Z x); cbn [OutputTarget_to_u8]; f_equal; lia|] end.
  exfalso. cbn [In] in H. lia.
Qed.
Lemma OutputTarget_json e : OutputTarget_of_json (OutputTarget_to_json e) = Ok e.
Proof. destruct e; reflexivity. Qed.

Lemma GateType_preserves (x : u32) : exists e, GateType_of_u32 x = Ok e /\ GateType_to_u32 e = x.
Proof.
  destruct (in_dec Z.eq_dec (w32_to_Z x) [1; 2; 3; 4]) as [H|H]; [exact (GateType_known x H)|].
  rewrite (GateType_unknown x H). eexists. split; reflexivity.
Qed.
Lemma GateType_values (e : GateType) : (forall n, e = GateType_Unknown n -> ~ In (w32_to_Z n) [1; 2; 3; 4]) -> GateType_of_u32 (GateType_to_u32 e) = Ok e.
Proof.
  intros H. destruct e as [| | | | n]; try reflexivity. apply (GateType_unknown n), (H n eq_refl).
Qed.
Lemma GateType_values_refuted : exists e : GateType, GateType_of_u32 (GateType_to_u32 e) <> Ok e.
Proof. exists (GateType_Unknown (Z_to_w32 1)). discriminate. Qed.
Lemma ToneMapper_preserves (x : u32) : exists e, ToneMapper_of_u32 x = Ok e /\ ToneMapper_to_u32 e = x.
Proof.
  destruct (in_dec Z.eq_dec (w32_to_Z x) [0; 1; 2; 3; 4]) as [H|H]; [exact (ToneMapper_known x H)|].
  rewrite (ToneMapper_unknown x H). eexists. split; reflexivity.
Qed.
Lemma ToneMapper_values (e : ToneMapper) : (forall n, e = ToneMapper_Other n -> ~ In (w32_to_Z n) [0; 1; 2; 3; 4]) -> ToneMapper_of_u32 (ToneMapper_to_u32 e) = Ok e.
Proof.
  intros H. destruct e as [| | | | | n]; try reflexivity. apply (ToneMapper_unknown n), (H n eq_refl).
Qed.
Lemma ToneMapper_values_refuted : exists e : ToneMapper, ToneMapper_of_u32 (ToneMapper_to_u32 e) <> Ok e.
Proof. exists (ToneMapper_Other (Z_to_w32 0)). discriminate. Qed.
From Coq Require Import Permutation.
From Verif Require Import Base BaseFacts Text TextFacts Biff Quantize Common Enums ColorText ColorFacts JsonFloat SpecJson JsonFloatFacts Json SpecJsonRecords.

Section Facts.
Context {L : json_lib}.
Implicit Types (fs : list (string * option json)).

(** ** Finding a field *)
Lemma filter_present names fs : filter (named names) (present fs) = present (filter (named names) fs).
Proof.
  induction fs as [|[k v] fs IH]; [reflexivity|]. unfold present in *. cbn [flat_map snd fst filter]. rewrite filter_app, IH.
  change (named names (k, v)) with (existsb (String.eqb k) names).
  destruct v as [j|]; cbn [filter app]; [change (named names (k, j)) with (existsb (String.eqb k) names)|];
    destruct (existsb (String.eqb k) names); reflexivity.
Qed.
(** the position of the only key among [names] *)
Fixpoint positions (names : list string) (i : nat) (keys : list string) : list nat :=
  match keys with
  | [] => []
  | k :: keys' => if existsb (String.eqb k) names then i :: positions names (S i) keys' else positions names (S i) keys'
  end.
Definition of_entry {A} (c : jcodec A) (v : option json) : res A :=
  match v with Some j => jc_of c j | None => match jc_missing c with Some d => Ok d | None => Err end end.
Lemma positions_ge names keys : forall i p, In p (positions names i keys) -> (i <= p)%nat.
Proof. induction keys as [|k keys IH]; intros i p H; [destruct H|]. cbn [positions] in H. destruct (existsb _ _); [destruct H as [->|H]; [lia|]|]; apply IH in H; lia. Qed.
Lemma filter_none names fs : forall i, positions names i (map fst fs) = [] -> filter (named names) fs = [].
Proof.
  induction fs as [|[k v] fs IH]; intros i H; [reflexivity|]. cbn [map fst positions filter] in *. unfold named at 1. cbn [fst].
  destruct (existsb _ _); [discriminate|]. eapply IH, H.
Qed.
Lemma filter_one names fs : forall i p e, positions names i (map fst fs) = [(i + p)%nat] -> nth_error fs p = Some e -> filter (named names) fs = [e].
Proof.
  induction fs as [|[k v] fs IH]; intros i p e H N; [destruct p; discriminate|]. cbn [map fst positions filter] in *. unfold named at 1. cbn [fst].
  destruct (existsb _ _) eqn:E.
  - injection H as Hp H. assert (p = 0%nat) by lia. subst p. injection N as <-. rewrite (filter_none _ _ _ H). reflexivity.
  - destruct p as [|p].
    + assert (In (i + 0)%nat (positions names (S i) (map fst fs))) by (rewrite H; left; reflexivity). apply positions_ge in H0. lia.
    + eapply (IH (S i) p). * rewrite H. f_equal. lia. * exact N.
Qed.
Lemma get_at {A} names fs keys p k v (c : jcodec A) r :
  map fst fs = keys -> positions names 0 keys = [p] -> nth_error fs p = Some (k, v) -> of_entry c v = r -> get (present fs) names c = r.
Proof.
  intros <- H N <-. unfold get. rewrite filter_present, (filter_one names fs 0 p (k, v) H N). unfold present. cbn [flat_map snd fst].
  destruct v; reflexivity.
Qed.
Lemma bind_get {A B} names fs (c : jcodec A) v (k : A -> res B) r :
  get (present fs) names c = Ok v -> k v = r -> (x <~ get (present fs) names c ;; k x) = r.
Proof. intros -> H. exact H. Qed.

(** ** Values that are restored *)
(** null is read as [None] only *)
Definition strict {A} (c : jcodec A) : Prop := forall x, jc_of c Jnull <> Ok x.
Lemma entry_put {A} (c : jcodec A) x : restores c x -> of_entry c (Some (jc_to c x)) = Ok x.
Proof. intros H. exact H. Qed.
Lemma record_read {A} (to : A -> json) (of : list (string * json) -> res A) x fs r :
  to x = object fs -> of (present fs) = r -> jc_of (jc_record to of) (jc_to (jc_record to of) x) = r.
Proof. intros E H. cbn [jc_record jc_to jc_of]. rewrite E. exact H. Qed.
Lemma restores_option {A} (c : jcodec A) o : strict c -> for_some (restores c) o -> restores (jc_option c) o.
Proof.
  intros S H. destruct o as [x|]; [|reflexivity]. cbn [for_some] in H. unfold restores in *. cbn [jc_option jc_to jc_of].
  destruct (jc_to c x) eqn:E; rewrite ?H; try reflexivity. destruct (S _ H).
Qed.
Lemma entry_put_some {A} (c : jcodec A) o : strict c -> for_some (restores c) o -> of_entry (jc_option c) (option_map (jc_to c) o) = Ok o.
Proof.
  intros S H. destruct o as [x|]; [|reflexivity]. apply (restores_option c (Some x) S H).
Qed.
Lemma for_some_impl {A} (P Q : A -> Prop) o : (forall x, P x -> Q x) -> for_some P o -> for_some Q o.
Proof. destruct o; cbn; auto. Qed.
Lemma for_some_all {A} (P : A -> Prop) o : (forall x, P x) -> for_some P o.
Proof. destruct o; cbn; auto. Qed.
Lemma restores_list {A} (c : jcodec A) l : Forall (restores c) l -> restores (jc_list c) l.
Proof.
  intros H. unfold restores in *. cbn [jc_list jc_to jc_of].
  induction H as [|x l Hx H IH]; [reflexivity|]. cbn [map read_all]. rewrite Hx. cbn [rbind]. rewrite IH. reflexivity.
Qed.
Lemma restores_array {A} n (c : jcodec A) l : List.length l = n -> Forall (restores c) l -> restores (jc_array n c) l.
Proof.
  intros N H. apply restores_list in H. unfold restores in *. cbn [jc_list jc_array jc_to jc_of] in *. rewrite map_length, N, Nat.eqb_refl. exact H.
Qed.
Lemma restores_pair {A B} (a : jcodec A) (b : jcodec B) p : restores a (fst p) -> restores b (snd p) -> restores (jc_pair a b) p.
Proof. destruct p as [x y]. unfold restores. cbn [fst snd jc_pair jc_to jc_of]. intros -> H. cbn [rbind]. rewrite H. reflexivity. Qed.

Lemma restores_bool x : restores jc_bool x. Proof. reflexivity. Qed.
Lemma restores_string x : restores jc_string x. Proof. reflexivity. Qed.
Lemma restores_integer {A} lo hi (to : A -> Z) of x : lo <= to x <= hi -> of (to x) = x -> restores (jc_integer lo hi to of) x.
Proof. intros R E. unfold restores. cbn [jc_integer jc_to jc_of]. replace ((lo <=? to x) && (to x <=? hi)) with true by lia. rewrite E. reflexivity. Qed.
Lemma restores_u8 x : restores jc_u8 x.
Proof. apply restores_integer; [pose proof (byte_to_Z_range x); lia | apply Z_to_byte_to_Z]. Qed.
Lemma restores_u16 x : restores jc_u16 x.
Proof. apply restores_integer; [pose proof (w16_to_Z_range x); lia | apply Z_to_w16_to_Z]. Qed.
Lemma restores_u32 x : restores jc_u32 x.
Proof. apply restores_integer; [pose proof (w32_to_Z_range x); lia | apply Z_to_w32_to_Z]. Qed.
Lemma restores_i32 x : restores jc_i32 x.
Proof.
  pose proof (w32_to_Z_range x). apply restores_integer; unfold w32_signed; cbv zeta.
  - destruct (w32_to_Z x <? 2147483648) eqn:?; lia.
  - assert (E : (if w32_to_Z x <? 2147483648 then w32_to_Z x else w32_to_Z x - 4294967296) mod 4294967296 = w32_to_Z x).
    { destruct (w32_to_Z x <? 2147483648) eqn:?; [apply Z.mod_small; lia|].
      rewrite <- (Z_mod_plus_full _ 1). replace (w32_to_Z x - 4294967296 + 1 * 4294967296) with (w32_to_Z x) by lia. apply Z.mod_small. lia. }
    rewrite E. apply Z_to_w32_to_Z.
Qed.
Lemma restores_Color x : restores jc_Color x.
Proof. unfold restores. cbn [jc_Color jc_to jc_of]. apply color_text_read, color_text_written. Qed.

Lemma to_of_jvalue v : v <> JsonFloat.JOther -> to_jvalue (of_jvalue v) = v.
Proof. destruct v; cbn; congruence. Qed.

Context (lib : lib_ok L).
Lemma keeps_finite_jnum : keeps_finite (fun x => NFloat (jl_num_of L x)) jnum_as_f32.
Proof. destruct lib as (K & _ & _). intros x H. exact (K x H). Qed.
Lemma restores_f32 x : finite x -> restores jc_f32 x.
Proof.
  intros H. unfold restores. cbn [jc_f32 jc_to jc_of]. unfold f32_to_json. rewrite (proj2 (finite_iff x) H). cbn [of_jvalue to_jvalue f32_from_json].
  rewrite (keeps_finite_jnum x H). reflexivity.
Qed.
Lemma restores_f32_nan_inf x : restores jc_f32_nan_inf x.
Proof.
  unfold restores. cbn [jc_f32_nan_inf jc_to jc_of]. rewrite to_of_jvalue.
  - destruct lib as (_ & Lo & _). exact (nan_inf_restored _ _ _ _ keeps_finite_jnum Lo x).
  - unfold F32WithNanInf_to_json. destruct (f32_is_nan x), (f32_is_negative x), (f32_is_infinite x); discriminate.
Qed.

(** ** Enumerations *)
Lemma utf8_ascii s : forallb (fun c => (c <? 128)%N) (lit s) = true -> string_of_list_byte (utf8_encode (lit s)) = s.
Proof.
  intros H. rewrite <- (string_of_list_byte_of_string s) at 2. f_equal. unfold lit in *.
  unfold list_byte_of_string. induction (list_ascii_of_string s) as [|a l IH]; [reflexivity|].
  cbn [map forallb] in H. apply andb_prop in H as [H0 H]. cbn [map]. unfold utf8_encode in *. cbn [flat_map]. rewrite IH by exact H.
  assert (E : utf8_char (N_of_ascii a) = [byte_of_ascii a]).
  { destruct a as [[] [] [] [] [] [] [] []]; try discriminate H0; reflexivity. }
  rewrite E. reflexivity.
Qed.
Definition plain_scalar (s : jscalar) : bool :=
  match s with
  | JStr s => forallb (fun c => (c <? 128)%N) (lit s)
  | JU64 z => (0 <=? z) && (z <? 18446744073709551616)
  | _ => false
  end.
Lemma plain_scalar_kept s : plain_scalar s = true -> to_jscalar (of_jscalar s) = s.
Proof.
  destruct s; cbn [plain_scalar of_jscalar to_jscalar]; intros H; try discriminate.
  - rewrite utf8_ascii by exact H. reflexivity.
  - rewrite H. reflexivity.
Qed.
Lemma restores_enum {E} (to : E -> jscalar) of e : of (to e) = Ok e -> plain_scalar (to e) = true -> restores (jc_enum to of) e.
Proof. intros H P. unfold restores. cbn [jc_enum jc_to jc_of]. rewrite plain_scalar_kept by exact P. exact H. Qed.

(** ** Strict types *)
Lemma strict_bool : strict jc_bool. Proof. discriminate. Qed.
Lemma strict_string : strict jc_string. Proof. discriminate. Qed.
Lemma strict_u16 : strict jc_u16. Proof. discriminate. Qed.
Lemma strict_u32 : strict jc_u32. Proof. discriminate. Qed.
Lemma strict_f32 : strict jc_f32. Proof. discriminate. Qed.
Lemma strict_f32_nan_inf : strict jc_f32_nan_inf. Proof. discriminate. Qed.
Lemma strict_Color : strict jc_Color. Proof. discriminate. Qed.
Lemma strict_enum {E} (to : E -> jscalar) of : (forall e, of Enums.JOther <> Ok e) -> strict (jc_enum to of). Proof. intros H. exact H. Qed.
Lemma strict_record {A} (to : A -> json) of : strict (jc_record to of). Proof. discriminate. Qed.
Lemma strict_list {A} (c : jcodec A) : strict (jc_list c). Proof. discriminate. Qed.
Lemma bind_ok {A B} (e : res A) v (k : A -> res B) r : e = Ok v -> k v = r -> (x <~ e ;; k x) = r.
Proof. intros -> H. exact H. Qed.
End Facts.

Ltac strict :=
  lazymatch goal with
  | |- strict jc_bool => apply strict_bool
  | |- strict jc_string => apply strict_string
  | |- strict jc_u16 => apply strict_u16
  | |- strict jc_u32 => apply strict_u32
  | |- strict jc_f32 => apply strict_f32
  | |- strict jc_f32_nan_inf => apply strict_f32_nan_inf
  | |- strict jc_Color => apply strict_Color
  | |- strict (jc_list _) => apply strict_list
  | |- strict (jc_enum _ _) => apply strict_enum; discriminate
  | |- strict (jc_record _ _) => apply strict_record
  | |- strict _ => discriminate
  end.
(** [more]: further lemmas about values that are restored *)
Ltac restored lib more :=
  lazymatch goal with
  | |- restores jc_bool _ => apply restores_bool
  | |- restores jc_string _ => apply restores_string
  | |- restores jc_u8 _ => apply restores_u8
  | |- restores jc_u16 _ => apply restores_u16
  | |- restores jc_u32 _ => apply restores_u32
  | |- restores jc_i32 _ => apply restores_i32
  | |- restores jc_Color _ => apply restores_Color
  | |- restores jc_f32 _ => apply (restores_f32 lib); assumption
  | |- restores jc_f32_nan_inf _ => apply (restores_f32_nan_inf lib)
  | |- restores (jc_option _) _ => apply restores_option; [strict | some_restored lib more]
  | |- restores (jc_list _) _ =>
      apply restores_list; (first [eapply Forall_impl; [|eassumption]; cbv beta; intros ? ?; restored lib more | apply Forall_forall; intros; restored lib more])
  | |- restores (jc_pair _ _) _ => apply restores_pair; restored lib more
  | _ => more tt
  end
with some_restored lib more :=
  first [eapply for_some_impl; [|eassumption]; cbv beta; intros ? ?; restored lib more | apply for_some_all; intros ?; restored lib more].
Ltac entry lib more :=
  lazymatch goal with
  | |- of_entry _ (Some _) = _ => apply entry_put; restored lib more
  | |- of_entry _ (option_map _ _) = _ => apply entry_put_some; [strict | some_restored lib more]
  end.
Ltac field lib more :=
  lazymatch goal with
  | K : map fst ?fs = ?ks |- (_ <~ get (present ?fs) ?names ?c ;; _) = _ =>
      let p := eval vm_compute in (hd 0%nat (positions names 0 ks)) in
      let e := eval lazy [nth_error fs put put_some put_TimerData app] in (nth_error fs p) in
      lazymatch e with Some (?k, ?v) =>
        eapply bind_get; [refine (get_at names fs ks p k v c _ K _ (eq_refl (Some (k, v))) _); [reflexivity | entry lib more] | cbv beta]
      end
  end.
Ltac open_record :=
  eapply record_read; [reflexivity|]; cbv beta;
  lazymatch goal with |- context [present ?l] =>
    let ks := eval lazy [map fst put put_some put_TimerData app] in (map fst l) in
    let K := fresh "K" in
    assert (K : map fst l = ks) by reflexivity;
    let fs := fresh "fs" in set (fs := l) in *
  end.
Lemma TimerData_eta t : mkTimerData (td_is_enabled t) (td_interval t) = t. Proof. destruct t; reflexivity. Qed.
Ltac timer lib more :=
  lazymatch goal with
  | |- (_ <~ get_TimerData _ ;; _) = _ =>
      eapply bind_ok; [unfold get_TimerData; field lib more; field lib more; apply f_equal; apply TimerData_eta | cbv beta]
  end.
Ltac no_more := fun _ => fail.
Ltac record lib more := open_record; repeat (first [field lib more | timer lib more]).

Section Loose.
Context {L : json_lib}.
Definition known (keys names : list string) : bool := forallb (fun n => existsb (String.eqb n) keys) names.
Lemma get_edited {A} keys o o' names (c : jcodec A) : edited_by_hand keys o o' -> known keys names = true -> get o' names c = get o names c.
Proof.
  intros (extra & P & X) K. unfold get.
  assert (E : filter (named (A := json) names) extra = []).
  { clear P. induction X as [|[k v] extra Hk X IH]; [reflexivity|]. cbn [filter]. rewrite IH.
    destruct (named names (k, v)) eqn:N; [exfalso|reflexivity]. unfold named in N. cbn [fst] in *. apply existsb_exists in N as (n & I & E).
      apply String.eqb_eq in E. subst n. unfold known in K. rewrite forallb_forall in K. specialize (K _ I).
      apply existsb_exists in K as (k' & I' & E). apply String.eqb_eq in E. subst k'. exact (Hk I'). }
  assert (Q : Permutation (filter (named (A := json) names) o') (filter (named names) o)).
  { rewrite <- (app_nil_r (filter (named names) o)), <- E, <- filter_app.
    clear -P. induction P as [|x l m P IH|x y l|l m n P1 IH1 P2 IH2]; cbn [filter].
    - apply Permutation_refl.
    - destruct (named names x); [apply perm_skip|]; exact IH.
    - destruct (named names x), (named names y); try apply perm_swap; apply Permutation_refl.
    - eapply perm_trans; eassumption. }
  destruct (filter (named names) o) as [|[k v] [|? ?]].
  - apply Permutation_sym, Permutation_nil in Q. rewrite Q. reflexivity.
  - apply Permutation_sym, Permutation_length_1_inv in Q. rewrite Q. reflexivity.
  - apply Permutation_length in Q. destruct (filter (named names) o') as [|[? ?] [|? ?]]; cbn in Q; try lia. reflexivity.
Qed.
Definition loose {A} (keys : list string) (c : jcodec A) : Prop := forall o o', edited_by_hand keys o o' -> jc_of c (Jobj o') = jc_of c (Jobj o).
End Loose.
Lemma bind_same {A B} (e e' : res A) (k k' : A -> res B) : e = e' -> (forall x, k x = k' x) -> (x <~ e ;; k x) = (x <~ e' ;; k' x).
Proof. intros -> H. destruct e'; [apply H | reflexivity]. Qed.
Ltac loose :=
  let o := fresh "o" in let o' := fresh "o" in let H := fresh in intros o o' H;
  lazymatch goal with |- jc_of ?c _ = _ => let c' := eval red in c in change c with c' end;
  cbn [jc_record jc_of fields_of rbind]; unfold get_TimerData;
  repeat lazymatch goal with
    | |- rbind (rbind (get o' ?n ?c) _) _ = _ => rewrite (get_edited _ o o' n c H eq_refl); destruct (get o n c); cbn [rbind]; [|reflexivity]
    | |- rbind (get o' ?n ?c) _ = _ => refine (bind_same _ _ _ _ (get_edited _ o o' n c H eq_refl) _); intros ?
    end; reflexivity.

Section Records.
Context {L : json_lib} (lib : lib_ok L).
Lemma restores_Vertex2D v : Vertex2D_finite v -> restores jc_Vertex2D v.
Proof. intros (? & ?). destruct v. record lib no_more. reflexivity. Qed.
Lemma restores_Vertex3D v : Vertex3D_finite v -> restores jc_Vertex3D v.
Proof. intros (? & ? & ?). destruct v. record lib no_more. reflexivity. Qed.
Lemma restores_Vertex4D v : Vertex4D_finite v -> restores jc_Vertex4D v.
Proof. intros (? & ? & ? & ?). destruct v. record lib no_more. reflexivity. Qed.
Lemma restores_DragPoint d : DragPoint_finite d -> restores jc_DragPoint d.
Proof. intros (? & ? & ? & ?). destruct d. record lib no_more. reflexivity. Qed.

Definition style_names : list string := ["Normal"; "Bold"; "Italic"; "Underline"; "Strikethrough"]%string.
Definition has (n : string) (l : list string) : bool := existsb (String.eqb n) l.
Lemma add_styles_has l : forall s, Forall (fun n => In n style_names) l -> add_styles (map (fun n => Jstr (lit n)) l) s =
  Ok (mkFontStyles (fs_normal s || has "Normal" l) (fs_bold s || has "Bold" l) (fs_italic s || has "Italic" l)
        (fs_underline s || has "Underline" l) (fs_strikethrough s || has "Strikethrough" l)).
Proof.
  induction l as [|n l IH]; intros [a b c d e] H.
  - cbn. rewrite !orb_false_r. reflexivity.
  - inversion H as [|? ? Hn Hl]; subst. cbn [map add_styles].
    change (to_jscalar (Jstr (lit n))) with (JStr (string_of_list_byte (utf8_encode (lit n)))).
    assert (E : string_of_list_byte (utf8_encode (lit n)) = n) by (apply utf8_ascii; cbn in Hn; decompose [or] Hn; subst; try reflexivity; contradiction).
    rewrite E. cbn in Hn. decompose [or] Hn; subst; try contradiction; cbn [add_style String.eqb Ascii.eqb Bool.eqb rbind]; rewrite (IH _ Hl);
      cbn [fs_normal fs_bold fs_italic fs_underline fs_strikethrough orb]; unfold has; cbn; rewrite ?orb_true_r, ?orb_false_r; reflexivity.
Qed.
Lemma has_perm n l m : Permutation l m -> has n l = has n m.
Proof.
  intros P. apply eq_true_iff_eq. unfold has. rewrite !existsb_exists. split; intros (x & I & E); exists x; (split; [|exact E]);
    [apply (Permutation_in _ P I) | apply (Permutation_in _ (Permutation_sym P) I)].
Qed.
Lemma restores_FontStyles s : restores jc_FontStyles s.
Proof.
  unfold restores. cbn [jc_FontStyles jc_to jc_of]. destruct lib as (_ & _ & P). specialize (P (FontStyles_names s)).
  rewrite add_styles_has.
  - rewrite !(has_perm _ _ _ P). destruct s as [[] [] [] [] []]; reflexivity.
  - apply Forall_forall. intros n I. apply (Permutation_in _ P) in I. destruct s as [[] [] [] [] []]; cbn in *; tauto.
Qed.
Lemma restores_FontDesc f : restores jc_FontDesc f.
Proof.
  destruct f as [c s w z n]. record lib ltac:(fun _ => apply restores_FontStyles). cbn [fd_charset fd_style fd_weight fd_size fd_name].
  destruct (w16_to_Z c =? 0) eqn:E; [|reflexivity]. do 2 f_equal.
  rewrite <- (Z_to_w16_to_Z c). f_equal. lia.
Qed.
End Records.

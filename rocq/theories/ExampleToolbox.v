(** Libraries that meet the assumptions of SpecExtract.v, for examples.  The formats here are not those of the real libraries: any
    format that is parsed to what it was printed from will do. *)
From Coq Require Import Permutation Lia String Floats.SpecFloat.
From Verif Require Import Base Text Biff Quantize JsonFloat Json SpecJson SpecJsonRecords Mesh SpecMesh SpecExpanded SpecAssets Extract SpecExtract.
From Verif Require Import BaseFacts TextFacts JsonFloatFacts ExpandedItemsFacts PropertiesExpanded PropertiesImage PropertiesAssets AssetFacts PropertiesMesh.

(** ** Prefix codes *)
Definition code (A : Type) : Type := ((A -> bytes) * (bytes -> option (A * bytes)))%type.
Definition good_at {A} (c : code A) (x : A) : Prop := forall rest, snd c (fst c x ++ rest) = Some (x, rest).
Definition good {A} (c : code A) : Prop := forall x, good_at c x.

Fixpoint print_pos (p : positive) : bytes :=
  match p with xO p => x00 :: print_pos p | xI p => x01 :: print_pos p | xH => [x02] end.
Fixpoint parse_pos (d : bytes) : option (positive * bytes) :=
  match d with
  | x00 :: d => match parse_pos d with Some (p, r) => Some (xO p, r) | None => None end
  | x01 :: d => match parse_pos d with Some (p, r) => Some (xI p, r) | None => None end
  | x02 :: d => Some (xH, d)
  | _ => None
  end.
Definition c_pos : code positive := (print_pos, parse_pos).
Lemma good_pos : good c_pos.
Proof. intros p rest. unfold c_pos. cbn [fst snd]. induction p as [p IH|p IH|]; cbn [print_pos parse_pos app]; try rewrite IH; reflexivity. Qed.
Definition c_map {A C} (f : A -> C) (g : C -> A) (c : code A) : code C :=
  (fun x => fst c (g x), fun d => match snd c d with Some (x, r) => Some (f x, r) | None => None end).
Lemma good_map {A C} (f : A -> C) (g : C -> A) c : good c -> (forall x, f (g x) = x) -> good (c_map f g c).
Proof. intros H E x rest. unfold c_map. cbn [fst snd]. rewrite (H (g x)), E. reflexivity. Qed.
Definition c_pair {A C} (a : code A) (c : code C) : code (A * C) :=
  (fun x => fst a (fst x) ++ fst c (snd x),
   fun d => match snd a d with Some (x, r) => match snd c r with Some (y, r) => Some ((x, y), r) | None => None end | None => None end).
Lemma good_pair_at {A C} (a : code A) (c : code C) x : good_at a (fst x) -> good_at c (snd x) -> good_at (c_pair a c) x.
Proof. intros H K rest. unfold c_pair. cbn [fst snd]. rewrite <- app_assoc, (H _), (K _). destruct x; reflexivity. Qed.
Lemma good_pair {A C} (a : code A) (c : code C) : good a -> good c -> good (c_pair a c).
Proof. intros H K x. apply good_pair_at; auto. Qed.
Definition c_option {A} (a : code A) : code (option A) :=
  (fun x => match x with None => [x00] | Some x => x01 :: fst a x end,
   fun d => match d with x00 :: d => Some (None, d) | x01 :: d => match snd a d with Some (x, r) => Some (Some x, r) | None => None end | _ => None end).
Lemma good_option {A} (a : code A) : good a -> good (c_option a).
Proof. intros H [x|] rest; unfold c_option; cbn [fst snd app]; [rewrite (H x)|]; reflexivity. Qed.
Fixpoint parse_list {A} (p : bytes -> option (A * bytes)) (n : nat) (d : bytes) : option (list A * bytes) :=
  match d with
  | x00 :: d => Some ([], d)
  | x01 :: d =>
      match n with
      | O => None
      | S n => match p d with Some (x, r) => match parse_list p n r with Some (l, r) => Some (x :: l, r) | None => None end | None => None end
      end
  | _ => None
  end.
Definition c_list {A} (a : code A) : code (list A) :=
  (fun l => flat_map (fun x => x01 :: fst a x) l ++ [x00], fun d => parse_list (snd a) (List.length d) d).
Lemma parse_list_good {A} (a : code A) l : Forall (good_at a) l -> forall n rest, (List.length l <= n)%nat ->
  parse_list (snd a) n (fst (c_list a) l ++ rest) = Some (l, rest).
Proof.
  induction 1 as [|x l H F IH]; intros n rest L; [destruct n; reflexivity|]. cbn [List.length] in L. destruct n as [|n]; [lia|].
  cbn [c_list fst flat_map app parse_list]. rewrite <- !app_assoc, (H _). fold (@app byte). rewrite app_assoc.
  change (flat_map _ l ++ [x00]) with (fst (c_list a) l). rewrite IH by lia. reflexivity.
Qed.
Lemma list_long {A} (a : code A) l rest : (List.length l <= List.length (fst (c_list a) l ++ rest))%nat.
Proof.
  rewrite app_length. cbn [c_list fst]. rewrite app_length. induction l as [|x l IH]; [cbn; lia|]. cbn [flat_map List.length app]. rewrite app_length. cbn [List.length] in *. lia.
Qed.
Lemma good_list_at {A} (a : code A) l : Forall (good_at a) l -> good_at (c_list a) l.
Proof. intros F rest. change (snd (c_list a)) with (fun d => parse_list (snd a) (List.length d) d). cbv beta. apply parse_list_good; [exact F|]. apply list_long. Qed.
Lemma good_list {A} (a : code A) : good a -> good (c_list a).
Proof. intros H l. apply good_list_at, Forall_forall. intros x _. apply H. Qed.

Definition c_N : code N := c_map (fun o => match o with None => 0%N | Some p => Npos p end) (fun n => match n with 0%N => None | Npos p => Some p end) (c_option c_pos).
Lemma good_N : good c_N. Proof. apply good_map; [apply good_option, good_pos|]. intros [|p]; reflexivity. Qed.
Definition c_Z : code Z := c_map (fun x : N * option positive => match x with (n, None) => Z.of_N n | (_, Some p) => Zneg p end)
  (fun z => match z with Zneg p => (0%N, Some p) | z => (Z.to_N z, None) end) (c_pair c_N (c_option c_pos)).
Lemma good_Z : good c_Z. Proof. apply good_map; [apply good_pair; [apply good_N|apply good_option, good_pos]|]. intros [|p|p]; reflexivity. Qed.
Definition c_byte : code byte := (fun b => [b], fun d => match d with b :: d => Some (b, d) | [] => None end).
Lemma good_byte : good c_byte. Proof. intros b rest. reflexivity. Qed.
Definition c_w32 : code w32 := c_map (fun x : byte * byte * byte * byte => let '(a, b, c, d) := x in W32 a b c d) (fun w => let '(W32 a b c d) := w in (a, b, c, d))
  (c_pair (c_pair (c_pair c_byte c_byte) c_byte) c_byte).
Lemma good_w32 : good c_w32.
Proof. apply good_map; [repeat apply good_pair; apply good_byte|]. intros [a b c d]. reflexivity. Qed.
Definition c_text : code rstring := c_list c_N.
Lemma good_text : good c_text. Proof. apply good_list, good_N. Qed.
Definition c_key : code string := c_map string_of_list_byte list_byte_of_string (c_list c_byte).
Lemma good_key : good c_key. Proof. apply good_map; [apply good_list, good_byte|]. apply string_of_list_byte_of_string. Qed.

(** ** JSON *)
Definition toy_json : json_lib := mkJsonLib f32 (fun x => x) Some (fun _ => Z_to_w32 0) ascii_lower (fun l => rev l).
Notation js := (@json toy_json).
Fixpoint print_json (j : js) : bytes :=
  match j with
  | Jnull => [x00]
  | Jbool b => [if b then x01 else x02]
  | Jnum (NInt z) => x03 :: fst c_Z z
  | Jnum (NFloat n) => x04 :: fst c_w32 n
  | Jstr s => x05 :: fst c_text s
  | Jarr l => x06 :: flat_map (fun x => x01 :: print_json x) l ++ [x00]
  | Jobj l => x07 :: flat_map (fun x => x01 :: fst c_key (fst x) ++ print_json (snd x)) l ++ [x00]
  end.
Definition tagged {A} (f : A -> js) (o : option (A * bytes)) : option (js * bytes) := match o with Some (x, r) => Some (f x, r) | None => None end.
Fixpoint parse_json (n : nat) (d : bytes) : option (js * bytes) :=
  match n with
  | O => None
  | S n =>
      match d with
      | x00 :: d => Some (Jnull, d)
      | x01 :: d => Some (Jbool true, d)
      | x02 :: d => Some (Jbool false, d)
      | x03 :: d => tagged (fun z => Jnum (NInt z)) (snd c_Z d)
      | x04 :: d => tagged (fun z : f32 => Jnum (@NFloat toy_json z)) (snd c_w32 d)
      | x05 :: d => tagged (fun s => Jstr s) (snd c_text d)
      | x06 :: d => tagged (fun l => Jarr l) (snd (c_list (print_json, parse_json n)) d)
      | x07 :: d => tagged (fun l => Jobj l) (snd (c_list (c_pair c_key (print_json, parse_json n))) d)
      | _ => None
      end
  end.
Section Ind.
Variable P : js -> Prop.
Hypothesis Hnull : P Jnull.
Hypothesis Hbool : forall b, P (Jbool b).
Hypothesis Hnum : forall n, P (Jnum n).
Hypothesis Hstr : forall s, P (Jstr s).
Hypothesis Harr : forall l, Forall P l -> P (Jarr l).
Hypothesis Hobj : forall l, Forall (fun x => P (snd x)) l -> P (Jobj l).
Fixpoint json_induction (j : js) : P j :=
  match j with
  | Jnull => Hnull | Jbool b => Hbool b | Jnum n => Hnum n | Jstr s => Hstr s
  | Jarr l => Harr l ((fix go l := match l return Forall P l with [] => Forall_nil _ | x :: l => Forall_cons x (json_induction x) (go l) end) l)
  | Jobj l => Hobj l ((fix go l := match l return Forall (fun x => P (snd x)) l with [] => Forall_nil _ | x :: l => Forall_cons x (json_induction (snd x)) (go l) end) l)
  end.
End Ind.
Lemma flat_map_within {A} (f : A -> bytes) x l : In x l -> (List.length (f x) <= List.length (flat_map f l))%nat.
Proof.
  induction l as [|y l IH]; intros H; [destruct H|]. cbn [flat_map]. rewrite app_length. destruct H as [->|H]; [lia|]. specialize (IH H). lia.
Qed.
Lemma parse_print_json j : forall n, (List.length (print_json j) <= n)%nat -> good_at (print_json, parse_json n) j.
Proof.
  induction j as [| b | x | s | l F | l F] using json_induction; intros n L rest; (destruct n as [|n]; [cbn in L; try destruct x; cbn in L; lia|]).
  - reflexivity.
  - destruct b; reflexivity.
  - destruct x as [z|x]; cbn [print_json fst snd app parse_json]; [rewrite (good_Z z)|rewrite (good_w32 x)]; reflexivity.
  - cbn [print_json fst snd app parse_json]. rewrite (good_text s). reflexivity.
  - cbn [print_json List.length] in L. rewrite app_length in L. cbn [List.length] in L. cbn [print_json fst snd app parse_json].
    change (flat_map _ l ++ [x00]) with (fst (c_list (print_json, parse_json n)) l).
    rewrite (good_list_at (print_json, parse_json n) l); [reflexivity|]. apply Forall_forall. intros x Hx. apply (proj1 (Forall_forall _ _) F x Hx).
    pose proof (flat_map_within (fun x => x01 :: print_json x) x l Hx) as W. cbn [List.length] in W. lia.
  - cbn [print_json List.length] in L. rewrite app_length in L. cbn [List.length] in L. cbn [print_json fst snd app parse_json].
    change (flat_map _ l ++ [x00]) with (fst (c_list (c_pair c_key (print_json, parse_json n))) l).
    rewrite (good_list_at (c_pair c_key (print_json, parse_json n)) l); [reflexivity|]. apply Forall_forall. intros x Hx. apply good_pair_at; [apply good_key|].
    apply (proj1 (Forall_forall _ _) F x Hx).
    pose proof (flat_map_within (fun x => x01 :: fst c_key (fst x) ++ print_json (snd x)) x l Hx) as W. cbn [List.length] in W. rewrite app_length in W. lia.
Qed.
Definition whole {A} (o : option (A * bytes)) : res A := match o with Some (x, []) => Ok x | _ => Err end.
Definition read_json (d : bytes) : res js :=
  match parse_json (List.length d) d with Some (x, r) => if forallb (fun b => match b with x20 => true | _ => false end) r then Ok x else Err | None => Err end.
Lemma read_printed_spaces j k : read_json (print_json j ++ repeat x20 k) = Ok j.
Proof.
  unfold read_json. assert (L : (List.length (print_json j) <= List.length (print_json j ++ repeat x20 k))%nat) by (rewrite app_length; lia).
  pose proof (parse_print_json j _ L (repeat x20 k)) as H. cbn [fst snd] in H. rewrite H.
  replace (forallb _ (repeat x20 k)) with true; [reflexivity|]. clear. induction k as [|k IH]; [reflexivity|exact IH].
Qed.
Lemma read_printed j : read_json (print_json j) = Ok j.
Proof. pose proof (read_printed_spaces j 0) as H. cbn [repeat] in H. rewrite app_nil_r in H. exact H. Qed.

(** ** OBJ files *)
Definition c_f64 : code f64 :=
  c_map (fun x : N * (positive * Z) => match x with
      | (0%N, _) => S754_nan
      | (1%N, _) => S754_zero false | (2%N, _) => S754_zero true
      | (3%N, _) => S754_infinity false | (4%N, _) => S754_infinity true
      | (5%N, (m, e)) => S754_finite false m e | (_, (m, e)) => S754_finite true m e
      end)
    (fun x => match x with
      | S754_nan => (0%N, (1%positive, 0))
      | S754_zero b => ((if b then 2 else 1)%N, (1%positive, 0))
      | S754_infinity b => ((if b then 4 else 3)%N, (1%positive, 0))
      | S754_finite b m e => ((if b then 6 else 5)%N, (m, e))
      end) (c_pair c_N (c_pair c_pos c_Z)).
Definition c_line : code (line f64) :=
  c_map (fun x : N * (rstring * (list (f64) * (option f64 * option f64) * list (N * option N * option N))) =>
      match x with
      | (0%N, (s, _)) => LComment s
      | (1%N, (s, _)) => LObject s
      | (2%N, (_, ([a; b; c], (w, _), _))) => LVertex a b c w
      | (3%N, (_, ([a], (v, w), _))) => LTex a v w
      | (4%N, (_, ([a; b; c], _, _))) => LNormal a b c
      | (_, (_, (_, _, l))) => LFace l
      end)
    (fun x => match x with
      | LComment s => (0%N, (s, ([], (None, None), [])))
      | LObject s => (1%N, (s, ([], (None, None), [])))
      | LVertex a b c w => (2%N, ([], ([a; b; c], (w, None), [])))
      | LTex a v w => (3%N, ([], ([a], (v, w), [])))
      | LNormal a b c => (4%N, ([], ([a; b; c], (None, None), [])))
      | LFace l => (5%N, ([], ([], (None, None), l)))
      end)
    (c_pair c_N (c_pair c_text (c_pair (c_pair (c_list c_f64) (c_pair (c_option c_f64) (c_option c_f64))) (c_list (c_pair (c_pair c_N (c_option c_N)) (c_option c_N)))))).
Lemma good_f64 : good c_f64. Proof. apply good_map; [repeat first [apply good_pair|apply good_N|apply good_pos|apply good_Z]|]. intros [[]|[]| |[] m e]; reflexivity. Qed.
Lemma good_line : good c_line.
Proof.
  apply good_map.
  - repeat first [apply good_pair | apply good_N | apply good_text | apply good_list | apply good_option | apply good_f64].
  - intros []; reflexivity.
Qed.
Definition print_obj (l : list (line f64)) : bytes := fst (c_list c_line) l.
Definition read_obj_text (d : bytes) : res (list (line f64)) := whole (snd (c_list c_line) d).
Lemma read_printed_obj l : read_obj_text (print_obj l) = Ok l.
Proof.
  unfold read_obj_text, print_obj. pose proof (good_list _ good_line l []) as H. rewrite app_nil_r in H. rewrite H. reflexivity.
Qed.

Definition toy : toolbox :=
  mkToolbox toy_json print_json print_json read_json ascii_alphanumeric no_slash low f64 exact32 exact64 exact_digits Some seven print_obj read_obj_text
    same stored (fun _ _ => Some (Z_to_w32 640, Z_to_w32 481)) Ok Ok toy_encode toy_load (fun l => rev l) true.
Example toy_ok : toolbox_ok toy.
Proof.
  split; [|split; [exact read_printed|split; [exact read_printed_spaces|split; [exact ascii_lower_keeps_numbers|split; [reflexivity|split; [exact exact_texts|split; [reflexivity|]]]]]]].
  - split; [intros x _; reflexivity|]. split; [intros s _; reflexivity|]. intros l. apply Permutation_sym, Permutation_rev.
  - intros l. apply Permutation_sym, Permutation_rev.
Qed.

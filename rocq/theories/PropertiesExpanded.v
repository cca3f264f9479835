(** C31: extracted game items get files of their own and come back from them. *)
From Coq Require Import Permutation.
From Verif Require Import Base Sound Cfb FileSystem ExpandedItems SpecExpanded BaseFacts SoundFacts CfbFacts FileSystemFacts ExpandedItemsFacts.

(** A small example: ASCII versions of the standard library's functions *)
Definition ascii_lower (s : rstring) : rstring := map (fun c => if (65 <=? c)%N && (c <=? 90)%N then (c + 32)%N else c) s.
Definition ascii_alphanumeric (c : uchar) : bool :=
  ((48 <=? c) && (c <=? 57) || (65 <=? c) && (c <=? 90) || (97 <=? c) && (c <=? 122))%N%bool.
Lemma ascii_lower_keeps_numbers : keeps_numbers ascii_lower.
Proof.
  intros s. exists (ascii_lower s). intros k. unfold ascii_lower. rewrite !map_app. f_equal. f_equal.
  induction (dec_text_digits k) as [|c l H _ IH]; [reflexivity|]. cbn [map]. rewrite IH. f_equal.
  destruct (N.leb_spec 65 c) as [L|L]; [|reflexivity]. exfalso. clear - H L. change uchar with N in *. lia.
Qed.
Definition is_first_P (json : bytes) : bool := match json with x50 :: _ => true | _ => false end.
Definition item (t n : string) (json : bytes) mesh : xitem := mkXitem (lit t) (lit n) json mesh.
Definition fixed (d : bytes) : mesh_data := fun stem => (d, d ++ d).
Definition three_items : list xitem :=
  [item "Primitive" "Ball" [x50; x31] (Some (fixed [x01], [fixed [x02]; fixed [x03]])); item "Primitive" "ball" [x50; x32] (Some (fixed [x04], []));
   item "Wall" "Ball" [x57] None; item "Primitive" "" [x50; x33] None].

(** C31: whatever the items are called, naming their files ends, and no two files are the same even where upper and lower case are
    not told apart; every item keeps the name it asked for, or that name with a number. *)
Theorem C31_unique : forall lower alphanumeric items, keeps_numbers lower ->
  exists names, file_names lower alphanumeric [] items = Ok names /\ List.length names = List.length items /\ NoDup (map lower names) /\
    Forall2 (fun i n => exists suffix, n = xi_type i ++ lit "." ++ file_safe_name alphanumeric i ++ suffix /\
                                       (suffix = [] \/ exists k, suffix = lit "__" ++ dec_text k)) items names.
Proof.
  intros lower alphanumeric items Hl. destruct (file_names_ok lower alphanumeric Hl items []) as (names & E & F & ND & _). exists names.
  split; [exact E|]. split; [clear - F; induction F; cbn; congruence|]. split; [exact ND|].
  clear - F. induction F as [|i n items names H F IH]; constructor; [|exact IH].
  unfold wanted_name in H. fold (file_safe_name alphanumeric i) in H.
  destruct H as [->|(j & ->)]; [exists []; rewrite app_nil_r; auto|]. exists (lit "__" ++ dec_text j). split; [rewrite <- !app_assoc; reflexivity|eauto].
Qed.
Print Assumptions C31_unique.
Example C31_unique_used : file_names ascii_lower ascii_alphanumeric [] three_items =
  Ok [lit "Primitive.Ball"; lit "Primitive.ball__1"; lit "Wall.Ball"; lit "Primitive.unnamed"].
Proof. vm_compute. reflexivity. Qed.

(** C31: extracting items into an empty directory and reading them back gives every item its own JSON, mesh and animation frames,
    in whatever order the parallel writers happen to write the files.  With glTF, the .bin file beside each file is there too. *)
Theorem C31_round_trip : forall lower alphanumeric json_is_primitive m items, keeps_numbers lower -> alphanumeric 46%N = false ->
  (forall i, In i items -> xi_mesh i <> None -> json_is_primitive (xi_json i) = true) ->
  (forall i, In i items -> json_is_primitive (xi_json i) = true -> clear_name alphanumeric i) ->
  exists names per_item, write_gameitems lower alphanumeric m items [] = Ok (map (fun n => n ++ lit ".json") names, per_item) /\
    Forall2 (fun n i => exists rest, n = xi_type i ++ lit "." ++ rest) names items /\
    forall order, Permutation (List.concat per_item) order ->
      read_gameitems json_is_primitive (map (fun n => n ++ lit ".json") names) (write_all order []) = Ok (map (fun e => own_data m (fst e) (snd e)) (combine names items)) /\
      (m = FmtGltf -> Forall (fun e => own_bins (fst e) (snd e) (write_all order [])) (combine names items)).
Proof.
  intros lower alphanumeric prim m items Hl Hd Hp Hc.
  destruct (file_names_ok lower alphanumeric Hl items []) as (names & E & F & ND & _).
  assert (H1 : List.length names = List.length items) by (clear - F; induction F; cbn; congruence).
  assert (H2 : forall n i, In (n, i) (combine names items) -> n = wanted_name alphanumeric i \/ exists j, n = wanted_name alphanumeric i ++ lit "__" ++ dec_text j).
  { clear - F. induction F as [|i n items names H F IH]; [intros ? ? []|]. intros n' i' [K|K]; [injection K as <- <-; exact H|apply IH, K]. }
  assert (H3 : NoDup names) by (clear - ND; apply (NoDup_map_inv lower), ND).
  exists names, (map (fun e => item_files m (fst e) (snd e)) (combine names items)). unfold write_gameitems. rewrite E. cbn [rbind].
  replace (existsb _ names) with false by (clear; induction names as [|n l IH]; [reflexivity|exact IH]). split; [reflexivity|]. split.
  { clear - F. induction F as [|i n items names H F IH]; constructor; [|exact IH].
    unfold wanted_name in H. destruct H as [->|(j & ->)]; [|rewrite <- !app_assoc]; eexists; reflexivity. }
  intros order Po. split.
  - exact (read_gameitems_ok alphanumeric prim m Hd names items H1 H2 H3 Hp Hc order Po).
  - intros M. apply Forall_forall. intros [n i] I. exact (bins_ok alphanumeric prim m Hd names items H1 H2 H3 Hp Hc order Po n i I M).
Qed.
Print Assumptions C31_round_trip.
Example C31_round_trip_used :
  (forall i, In i three_items -> xi_mesh i <> None -> is_first_P (xi_json i) = true) /\
  (forall i, In i three_items -> is_first_P (xi_json i) = true -> clear_name ascii_alphanumeric i).
Proof.
  assert (G : forall p k, p ++ lit "_anim_" ++ dec_text k <> lit "Ball" /\ p ++ lit "_anim_" ++ dec_text k <> lit "ball" /\
    p ++ lit "_anim_" ++ dec_text k <> lit "unnamed").
  { intros p k. assert (M : In 95%N (p ++ lit "_anim_" ++ dec_text k)) by (apply in_or_app; right; left; reflexivity).
    repeat split; intros E; rewrite E in M; cbn in M; repeat (destruct M as [M|M]; [discriminate M|]); exact M. }
  split.
  - intros i [<-|[<-|[<-|[<-|[]]]]]; cbn; congruence.
  - intros i [<-|[<-|[<-|[<-|[]]]]] H; try discriminate H;
      (split; [intros p k E; destruct (G p k) as (G1 & G2 & G3); symmetry in E; first [exact (G1 E)|exact (G2 E)|exact (G3 E)]|discriminate]).
Qed.

(** C31, finding: a primitive called like an animation frame of another one loses its mesh, or gives it away. *)
Definition frame_like : list xitem :=
  [item "Primitive" "Ball" [x50; x31] (Some (fixed [x01], [fixed [x02]])); item "Primitive" "Ball_anim_0" [x50; x32] (Some (fixed [x04], []))].
Theorem C31_frame_name_refuted : exists items order index per_item,
  write_gameitems ascii_lower ascii_alphanumeric FmtObj items [] = Ok (index, per_item) /\ Permutation (List.concat per_item) order /\
  (exists got, read_gameitems is_first_P index (write_all order []) = Ok got /\ nth_error got 0 =
     Some ([x50; x31], Some (FmtObj, [x01]), Some (FmtObj, [[x04]])) /\ nth_error got 0 <> option_map (own_data FmtObj (lit "Primitive.Ball")) (nth_error items 0)).
Proof.
  exists frame_like. eexists. eexists. eexists. split; [vm_compute; reflexivity|]. split; [apply Permutation_refl|].
  eexists. split; [vm_compute; reflexivity|]. split; [reflexivity|discriminate].
Qed.
Print Assumptions C31_frame_name_refuted.

(** C31, finding: a primitive called "json" loses its mesh: it is written to "Primitive.json.obj" and looked for in "Primitive.obj". *)
Theorem C31_json_name_refuted : exists items order index per_item,
  write_gameitems ascii_lower ascii_alphanumeric FmtObj items [] = Ok (index, per_item) /\ Permutation (List.concat per_item) order /\
  read_gameitems is_first_P index (write_all order []) = Ok [([x50], None, None)] /\ map (own_data FmtObj (lit "Primitive.json")) items = [([x50], Some (FmtObj, [x01]), None)].
Proof.
  exists [item "Primitive" "json" [x50] (Some (fixed [x01], []))]. eexists. eexists. eexists. split; [vm_compute; reflexivity|].
  split; [apply Permutation_refl|]. split; vm_compute; reflexivity.
Qed.
Print Assumptions C31_json_name_refuted.

(** Facts about meshes and OBJ files. *)
From Coq Require Import Floats.SpecFloat ZifyBool.
From Verif Require Import Base Text Image Sound Quantize ColorText JsonFloat Cfb Mesh SpecMesh SpecColor Common BaseFacts BiffFacts CommonFacts ColorFacts FlipFacts.

(** ** Comments *)
Lemma hex_digit_plain n : 0 <= n < 16 -> is_whitespace (hex_digit n) = false.
Proof. intros H. assert (F : forallb (fun n => negb (is_whitespace (hex_digit (Z.of_nat n)))) (seq 0 16) = true) by (vm_compute; reflexivity).
  rewrite forallb_forall in F. specialize (F (Z.to_nat n)). rewrite Z2Nat.id in F by lia.
  rewrite negb_true_iff in F. apply F. apply in_seq. lia. Qed.
Definition plain_word (w : rstring) : Prop := w <> [] /\ Forall (fun c => is_whitespace c = false) w.
Lemma hex2_plain b : plain_word (hex2 b).
Proof.
  unfold hex2. pose proof (byte_to_Z_range b). split; [discriminate|].
  repeat constructor; apply hex_digit_plain; lia.
Qed.
Lemma split_word w : forall word s, Forall (fun c => is_whitespace c = false) w ->
  split_whitespace word (w ++ s) = split_whitespace (rev w ++ word) s.
Proof.
  induction w as [|c w IH]; intros word s H; [reflexivity|]. inversion H as [|? ? H1 H2]; subst.
  cbn [app split_whitespace]. rewrite H1. rewrite (IH _ _ H2). cbn [rev]. rewrite <- app_assoc. reflexivity.
Qed.
Lemma split_end w : w <> [] -> split_whitespace (rev w ++ []) [] = [w].
Proof.
  intros H. rewrite app_nil_r. cbn [split_whitespace]. destruct (rev w) as [|x r] eqn:E.
  - exfalso. apply H. rewrite <- (rev_involutive w), E. reflexivity.
  - rewrite <- E, rev_involutive. reflexivity.
Qed.
Lemma split_join l : Forall plain_word l -> split_whitespace [] (join_space l) = l.
Proof.
  induction l as [|w l IH]; intros H; [reflexivity|]. inversion H as [|? ? [N P] H2]; subst. specialize (IH H2).
  destruct l as [|w' l'].
  - cbn [join_space]. rewrite <- (app_nil_r w) at 1. rewrite (split_word w [] [] P). apply split_end. exact N.
  - change (join_space (w :: w' :: l')) with (w ++ lit " " ++ join_space (w' :: l')).
    rewrite (split_word w [] _ P). set (J := join_space (w' :: l')) in *. clearbody J.
    rewrite app_nil_r. change (lit " " ++ J) with ((32%N : uchar) :: J). cbn [split_whitespace].
    change (is_whitespace 32%N) with true. cbv iota.
    destruct (rev w) as [|x r] eqn:E.
    + exfalso. apply N. rewrite <- (rev_involutive w), E. reflexivity.
    + rewrite <- E, rev_involutive, IH. reflexivity.
Qed.
Lemma parse_hex2 b : u8_from_hex (utf8_encode (hex2 b)) = Ok b.
Proof.
  assert (F : forallb (fun n => match u8_from_hex (utf8_encode (hex2 (Z_to_byte (Z.of_nat n)))) with Ok c => Byte.eqb c (Z_to_byte (Z.of_nat n)) | _ => false end) (seq 0 256) = true)
    by (vm_compute; reflexivity).
  rewrite forallb_forall in F. specialize (F (Z.to_nat (byte_to_Z b))). pose proof (byte_to_Z_range b). rewrite Z2Nat.id in F by lia.
  rewrite Z_to_byte_to_Z in F. specialize (F ltac:(apply in_seq; lia)).
  destruct (u8_from_hex _) as [c|]; [|discriminate]. f_equal. apply Byte.byte_dec_bl. exact F.
Qed.
Lemma parse_hex_words_ok d : parse_hex_words (map hex2 d) = Ok d.
Proof. induction d as [|b d IH]; [reflexivity|]. cbn [map parse_hex_words]. rewrite parse_hex2, IH. reflexivity. Qed.
Lemma parse_comment d : obj_parse_vpx_comment (obj_vpx_comment d) =
  Ok (if (List.length d =? 12)%nat then Some (NormalBytes d) else if (List.length d =? 32)%nat then Some (VertexBytes d) else None).
Proof.
  unfold obj_parse_vpx_comment, obj_vpx_comment. 
  assert (S : forall s, strip_prefix (lit "vpx ") (lit "vpx " ++ s) = Some s) by reflexivity. rewrite S.
  rewrite split_join by (apply Forall_forall; intros w H; apply in_map_iff in H; destruct H as (b & <- & _); apply hex2_plain).
  rewrite parse_hex_words_ok. reflexivity.
Qed.

(** ** Indices and vertices *)
Lemma take_w32_bytes w d : take_w32 (w32_bytes w ++ d) = Ok (w, d).
Proof. destruct w; reflexivity. Qed.
Lemma take_w16_bytes w d : take_w16 (w16_bytes w ++ d) = Ok (w, d).
Proof. destruct w; reflexivity. Qed.
Lemma read_write_index (wide : bool) i d : 0 <= i -> i < (if wide then 4294967296 else 65536) ->
  read_index wide (write_index wide i ++ d) = Ok (i, d).
Proof.
  intros H0 H. unfold read_index, write_index. destruct wide.
  - rewrite take_w32_bytes. cbn [rbind]. rewrite w32_to_Z_small by lia. reflexivity.
  - rewrite take_w16_bytes. cbn [rbind]. rewrite w16_to_Z_of, Z.mod_small by lia. reflexivity.
Qed.
Definition face_bytes (wide : bool) (f : face) : bytes := write_index wide (f_0 f) ++ write_index wide (f_1 f) ++ write_index wide (f_2 f).
Lemma write_index_len wide i : zlen (write_index wide i) = index_width wide.
Proof. destruct wide; reflexivity. Qed.
Lemma faces_len wide fs : zlen (flat_map (face_bytes wide) fs) = 3 * index_width wide * zlen fs.
Proof.
  induction fs as [|f fs IH]; [destruct wide; reflexivity|]. cbn [flat_map]. rewrite zlen_app, IH. unfold face_bytes. rewrite !zlen_app, !write_index_len.
  rewrite (zlen_cons f fs). destruct wide; cbn [index_width]; lia.
Qed.
Lemma read_faces_ok (wide : bool) fs : forall d, Forall (face_within 0 (if wide then 4294967295 else 65535)) fs ->
  read_faces wide (List.length fs) (flat_map (face_bytes wide) fs ++ d) = Ok fs.
Proof.
  induction fs as [|f fs IH]; intros d H; [reflexivity|]. inversion H as [|? ? (H0 & H1 & H2) H']; subst.
  cbn [flat_map List.length read_faces]. unfold face_bytes at 1. rewrite <- !app_assoc.
  rewrite read_write_index by (destruct wide; lia). cbn [rbind].
  rewrite read_write_index by (destruct wide; lia). cbn [rbind].
  rewrite read_write_index by (destruct wide; lia). cbn [rbind]. rewrite (IH d H'). cbn [rbind]. destruct f; reflexivity.
Qed.
Lemma vertex_bytes_len v : List.length (vertex_bytes v) = 32%nat.
Proof. reflexivity. Qed.
Lemma read_vertex_ok w d : stored_vertex w -> read_vertex (w_bytes w ++ d) = Ok (w, d).
Proof.
  intros H. unfold read_vertex. destruct w as [b v]. cbn [w_bytes w_vertex] in *. unfold stored_vertex in H. cbn [w_bytes w_vertex] in H. subst b.
  assert (F : firstn 32 (vertex_bytes v ++ d) = vertex_bytes v) by reflexivity. rewrite F.
  unfold vertex_bytes at 1. rewrite <- !app_assoc.
  do 8 (rewrite take_w32_bytes; cbn [rbind]). destruct v; reflexivity.
Qed.
Lemma read_vertices_ok vs : forall d, Forall stored_vertex vs -> read_vertices (List.length vs) (flat_map w_bytes vs ++ d) = Ok vs.
Proof.
  induction vs as [|w vs IH]; intros d H; [reflexivity|]. inversion H as [|? ? H1 H2]; subst.
  cbn [flat_map List.length read_vertices]. rewrite <- app_assoc, (read_vertex_ok w _ H1). cbn [rbind]. rewrite (IH d H2). reflexivity.
Qed.
Lemma vertices_len vs : Forall stored_vertex vs -> zlen (flat_map w_bytes vs) = 32 * zlen vs.
Proof.
  induction vs as [|w vs IH]; intros H; [reflexivity|]. inversion H as [|? ? H1 H2]; subst. cbn [flat_map]. rewrite zlen_app, (IH H2).
  rewrite H1. unfold zlen at 1. rewrite vertex_bytes_len. rewrite zlen_cons. lia.
Qed.
(** What reading produces *)
Lemma take_w32_inv d w r : take_w32 d = Ok (w, r) -> d = w32_bytes w ++ r.
Proof. destruct d as [|a [|b [|c [|e d]]]]; cbn; intros H; try discriminate. injection H as <- <-. reflexivity. Qed.
Lemma take_w16_inv d w r : take_w16 d = Ok (w, r) -> d = w16_bytes w ++ r.
Proof. destruct d as [|a [|b d]]; cbn; intros H; try discriminate. injection H as <- <-. reflexivity. Qed.
Ltac step H := let w := fresh "w" in let r := fresh "r" in let E := fresh "E" in
  match type of H with (rbind ?e _) = _ => destruct e as [[w r]|] eqn:E; cbn [rbind] in H; [|discriminate] end.
Lemma read_vertex_stored d w r : read_vertex d = Ok (w, r) -> stored_vertex w /\ d = w_bytes w ++ r.
Proof.
  intros H. unfold read_vertex in H. do 8 step H. injection H as <- <-.
  apply take_w32_inv in E, E0, E1, E2, E3, E4, E5, E6. subst. unfold stored_vertex. cbn [w_bytes w_vertex].
  split; reflexivity.
Qed.
Lemma read_vertices_stored n : forall d vs, read_vertices n d = Ok vs -> Forall stored_vertex vs /\ List.length vs = n.
Proof.
  induction n as [|n IH]; intros d vs H; cbn [read_vertices] in H; [injection H as <-; split; [constructor|reflexivity]|].
  step H. destruct (read_vertices n r) as [vs'|] eqn:E1; [|discriminate]. cbn [rbind] in H. injection H as <-.
  destruct (IH _ _ E1) as [A B]. destruct (read_vertex_stored _ _ _ E) as [C _]. split; [constructor; assumption|cbn; lia].
Qed.
Lemma read_index_range (wide : bool) d i r : read_index wide d = Ok (i, r) -> 0 <= i <= (if wide then 4294967295 else 65535).
Proof.
  unfold read_index. destruct wide; intros H; step H; injection H as <- <-.
  - pose proof (w32_to_Z_range w). lia.
  - pose proof (w16_to_Z_range w). lia.
Qed.
Lemma read_faces_range (wide : bool) n : forall d fs, read_faces wide n d = Ok fs ->
  Forall (face_within 0 (if wide then 4294967295 else 65535)) fs /\ List.length fs = n.
Proof.
  induction n as [|n IH]; intros d fs H; cbn [read_faces] in H; [injection H as <-; split; [constructor|reflexivity]|].
  do 3 step H. destruct (read_faces wide n r1) as [fs'|] eqn:E2; [|discriminate]. cbn [rbind] in H. injection H as <-.
  destruct (IH _ _ E2) as [A B]. apply read_index_range in E, E0, E1. split; [|cbn; lia].
  constructor; [repeat split; cbn; lia|exact A].
Qed.

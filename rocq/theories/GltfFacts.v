(** Proofs about GLB and glTF files. *)
From Coq Require Import Floats.SpecFloat ZifyBool.
From Verif Require Import Base Text Image Sound Quantize ColorText JsonFloat Cfb Json Compat Mesh SpecMesh Gltf SpecGltf
  BaseFacts BiffFacts CommonFacts ColorFacts JsonFloatFacts FlipFacts MeshFacts.

(** ** Lists of chunks *)
Lemma w32_bytes_length w : List.length (w32_bytes w) = 4%nat. Proof. reflexivity. Qed.
Lemma w16_bytes_length w : List.length (w16_bytes w) = 2%nat. Proof. reflexivity. Qed.
Lemma zlen_flat_map {A} (f : A -> bytes) n l : (forall x, In x l -> zlen (f x) = n) -> zlen (flat_map f l) = n * zlen l.
Proof.
  induction l as [|a l IH]; intros H; [unfold zlen; cbn; lia|]. cbn [flat_map]. rewrite zlen_app, IH, H by (try left; auto; intros; apply H; right; assumption).
  unfold zlen. cbn [List.length]. lia.
Qed.
Lemma skipn_chunks {A} (f : A -> bytes) (n : nat) l i w r : (forall x, In x l -> List.length (f x) = n) -> nth_error l i = Some w ->
  skipn (i * n) (flat_map f l ++ r) = f w ++ flat_map f (skipn (S i) l) ++ r.
Proof.
  revert i. induction l as [|a l IH]; intros [|i] H E; try discriminate; cbn [nth_error] in E.
  - injection E as ->. cbn [Nat.mul skipn flat_map]. rewrite <- app_assoc. reflexivity.
  - cbn [flat_map Nat.mul]. rewrite <- app_assoc, skipn_app. rewrite (H a (or_introl eq_refl)).
    rewrite skipn_all2 by (rewrite (H a (or_introl eq_refl)); lia). cbn [app]. replace (n + i * n - n)%nat with (i * n)%nat by lia.
    rewrite (IH i) by (auto; intros; apply H; right; assumption). reflexivity.
Qed.
Lemma map_res_seq {A B} (l : list A) (g : nat -> res B) (h : A -> B) : (forall i x, nth_error l i = Some x -> g i = Ok (h x)) ->
  map_res g (seq 0 (List.length l)) = Ok (map h l).
Proof.
  intros H. assert (G : forall k, (forall i x, nth_error l i = Some x -> g (k + i)%nat = Ok (h x)) -> map_res g (seq k (List.length l)) = Ok (map h l)).
  { clear H. induction l as [|a l IH]; intros k H; [reflexivity|]. cbn [List.length seq map_res map].
    pose proof (H 0%nat a eq_refl) as H0. rewrite Nat.add_0_r in H0. rewrite H0. cbn [rbind]. rewrite IH; [reflexivity|].
    intros i x E. rewrite <- (H (S i) x E). f_equal. lia. }
  apply G. exact H.
Qed.
Lemma from_offset_app (a b : bytes) n : n = zlen a -> from_offset n (a ++ b) = Ok b.
Proof.
  intros ->. unfold from_offset. rewrite zlen_app. pose proof (zlen_nonneg b). replace (_ <=? _) with true by lia.
  unfold zlen. rewrite Nat2Z.id, skipn_app, skipn_all, Nat.sub_diag. reflexivity.
Qed.
Lemma from_offset_chunks {A} (f : A -> bytes) (n : nat) l i w pre r o : (forall x, In x l -> List.length (f x) = n) -> nth_error l i = Some w ->
  o = zlen pre + Z.of_nat i * Z.of_nat n -> exists r', from_offset o (pre ++ flat_map f l ++ r) = Ok (f w ++ r').
Proof.
  intros H E ->. exists (flat_map f (skipn (S i) l) ++ r). unfold from_offset.
  assert (i < List.length l)%nat by (apply nth_error_Some; congruence).
  assert (L : zlen (flat_map f l) = Z.of_nat n * zlen l) by (apply zlen_flat_map; intros; unfold zlen; rewrite H by assumption; reflexivity).
  rewrite !zlen_app, L. pose proof (zlen_nonneg r). replace (_ <=? _) with true by (unfold zlen at 3; nia).
  replace (Z.to_nat (zlen pre + Z.of_nat i * Z.of_nat n)) with (List.length pre + i * n)%nat by (unfold zlen; lia).
  rewrite skipn_app, skipn_all2 by lia. cbn [app]. replace (List.length pre + i * n - List.length pre)%nat with (i * n)%nat by lia.
  rewrite (skipn_chunks f n l i w r H E). reflexivity.
Qed.
Lemma split_at_app (a b : bytes) n : n = zlen a -> split_at n (a ++ b) = Ok (a, b).
Proof.
  intros ->. unfold split_at. rewrite zlen_app. pose proof (zlen_nonneg b). replace (_ <=? _) with true by lia.
  unfold zlen. rewrite Nat2Z.id, firstn_app, skipn_app, firstn_all, skipn_all, Nat.sub_diag. cbn [firstn skipn]. rewrite app_nil_r. reflexivity.
Qed.
Lemma next_w32_bytes w r : next_w32 (w32_bytes w ++ r) = Ok (w, r). Proof. destruct w. reflexivity. Qed.
Lemma next_w16_bytes w r : next_w16 (w16_bytes w ++ r) = Ok (w, r). Proof. destruct w. reflexivity. Qed.
Lemma bytes_eqb_refl a : bytes_eqb a a = true.
Proof.
  unfold bytes_eqb. rewrite Nat.eqb_refl. cbn [andb]. induction a as [|b a IH]; [reflexivity|]. cbn [combine forallb fst snd]. rewrite Z.eqb_refl, IH. reflexivity.
Qed.
Lemma padding_spec n : (n + Z.of_nat (padding n)) mod 4 = 0.
Proof. unfold padding. rewrite Z2Nat.id by (apply Z.mod_pos_bound; lia). Z.div_mod_to_equations. lia. Qed.

(** ** The binary data *)
Lemma position_len w : List.length (position_bytes w) = 12%nat.
Proof. unfold position_bytes. rewrite !app_length, !w32_bytes_length. reflexivity. Qed.
Lemma normal_len w : List.length (normal_bytes w) = 12%nat.
Proof. unfold normal_bytes. rewrite !app_length, !w32_bytes_length. reflexivity. Qed.
Lemma texcoord_len w : List.length (texcoord_bytes w) = 8%nat.
Proof. unfold texcoord_bytes. rewrite !app_length, !w32_bytes_length. reflexivity. Qed.
Lemma positions_len vs : zlen (flat_map position_bytes vs) = 12 * zlen vs.
Proof. apply zlen_flat_map. intros. unfold zlen. rewrite position_len. reflexivity. Qed.
Lemma normals_len vs : zlen (flat_map normal_bytes vs) = 12 * zlen vs.
Proof. apply zlen_flat_map. intros. unfold zlen. rewrite normal_len. reflexivity. Qed.
Lemma texcoords_len vs : zlen (flat_map texcoord_bytes vs) = 8 * zlen vs.
Proof. apply zlen_flat_map. intros. unfold zlen. rewrite texcoord_len. reflexivity. Qed.
Definition gltf_face_bytes (wide : bool) (f : face) : bytes := write_index wide (f_0 f) ++ write_index wide (f_1 f) ++ write_index wide (f_2 f).
Lemma index_bytes_eq n fs : index_bytes n fs = flat_map (gltf_face_bytes (65535 <? n)) fs. Proof. reflexivity. Qed.
Lemma gltf_face_len wide f : List.length (gltf_face_bytes wide f) = (if wide then 12 else 6)%nat.
Proof. unfold gltf_face_bytes, write_index. destruct wide; rewrite !app_length, ?w32_bytes_length, ?w16_bytes_length; reflexivity. Qed.
Lemma indices_len n fs : zlen (index_bytes n fs) = (if 65535 <? n then 12 else 6) * zlen fs.
Proof. rewrite index_bytes_eq. apply zlen_flat_map. intros. unfold zlen. rewrite gltf_face_len. destruct (65535 <? n); reflexivity. Qed.
Lemma gltf_bin_aligned vs fs : zlen (gltf_bin vs fs) mod 4 = 0.
Proof. unfold gltf_bin. cbv zeta. rewrite zlen_app. match goal with |- (_ + zlen (repeat _ ?k)) mod 4 = _ => replace (zlen (repeat x00 k)) with (Z.of_nat k) by (unfold zlen; rewrite repeat_length; reflexivity) end. apply padding_spec. Qed.

(** The vertex that is read *)
Definition read_back (w : wrapper) : wrapper :=
  mkWrapper (position_bytes w ++ stored_normal w ++ texcoord_bytes w) (shown_vertex (w_vertex w)).
Definition full (w : wrapper) : Prop := List.length (w_bytes w) = 32%nat.
Lemma stored_normal_len w : full w -> List.length (stored_normal w) = 12%nat.
Proof. unfold full, stored_normal. intros F. rewrite firstn_length, skipn_length, F. reflexivity. Qed.
Lemma read_back_stored w : stored_vertex w -> w_bytes (read_back w) = w_bytes w.
Proof.
  unfold stored_vertex, read_back, stored_normal, position_bytes, texcoord_bytes. intros E. cbn [w_bytes]. rewrite E. unfold vertex_bytes.
  destruct (w_vertex w) as [x y z nx ny nz tu tv]. cbn [v_x v_y v_z v_nx v_ny v_nz v_tu v_tv].
  destruct x, y, z, nx, ny, nz, tu, tv. reflexivity.
Qed.
Lemma stored_full w : stored_vertex w -> full w.
Proof. unfold stored_vertex, full. intros ->. unfold vertex_bytes. rewrite !app_length, !w32_bytes_length. reflexivity. Qed.

Section Read.
Context {L : json_lib}.
Variables (vs : list wrapper) (fs : list face).
Hypothesis F : Forall full vs.
Notation n := (zlen vs).
Lemma read_vertex_back i w : nth_error vs i = Some w ->
  read_gltf_vertex (gltf_bin vs fs) 0 (12 * n) (24 * n) (Some (map (fun w => hex_encode (stored_normal w)) vs)) i = Ok (read_back w).
Proof.
  intros E. unfold read_gltf_vertex.
  assert (W : full w) by (rewrite Forall_forall in F; apply F; exact (nth_error_In _ _ E)).
  assert (X1 : exists r, from_offset (0 + Z.of_nat i * 12) (gltf_bin vs fs) = Ok (position_bytes w ++ r)).
  { unfold gltf_bin. cbv zeta. rewrite <- !app_assoc. apply (from_offset_chunks position_bytes 12 vs i w []); [intros; apply position_len|exact E|reflexivity]. }
  assert (X2 : exists r, from_offset (12 * n + Z.of_nat i * 12) (gltf_bin vs fs) = Ok (normal_bytes w ++ r)).
  { unfold gltf_bin. cbv zeta. rewrite <- !app_assoc. apply (from_offset_chunks normal_bytes 12 vs i w); [intros; apply normal_len|exact E|]. rewrite positions_len. reflexivity. }
  assert (X3 : exists r, from_offset (24 * n + Z.of_nat i * 8) (gltf_bin vs fs) = Ok (texcoord_bytes w ++ r)).
  { unfold gltf_bin. cbv zeta. rewrite <- !app_assoc, (app_assoc (flat_map position_bytes vs)).
    apply (from_offset_chunks texcoord_bytes 8 vs i w); [intros; apply texcoord_len|exact E|]. rewrite zlen_app, positions_len, normals_len. lia. }
  destruct X1 as (r1 & ->), X2 as (r2 & ->), X3 as (r3 & ->). cbn [rbind].
  unfold position_bytes at 1, normal_bytes, texcoord_bytes at 1. cbv zeta. rewrite <- !app_assoc.
  repeat (rewrite next_w32_bytes; cbn [rbind]).
  rewrite nth_error_map, E. cbn [option_map]. rewrite decode_hex. rewrite (proj2 (Z.eqb_eq _ _)) by (unfold zlen; rewrite stored_normal_len by exact W; reflexivity).
  unfold read_back, position_bytes, texcoord_bytes, shown_vertex, shown, nan_as_zero, f32_zero. cbv zeta. rewrite <- !app_assoc. reflexivity.
Qed.
Definition index_back (i : Z) : Z := if 65535 <? n then w32_to_Z (Z_to_w32 i) else w16_to_Z (Z_to_w16 i).
Definition gltf_face_back (f : face) : face := mkFace (index_back (f_0 f)) (index_back (f_1 f)) (index_back (f_2 f)).
Lemma read_face_back i f : nth_error fs i = Some f -> read_gltf_face (gltf_bin vs fs) (32 * n) (65535 <? n) i = Ok (gltf_face_back f).
Proof.
  intros E. unfold read_gltf_face.
  assert (X : forall o, o = 32 * n + Z.of_nat i * (if 65535 <? n then 12 else 6) -> exists r, from_offset o (gltf_bin vs fs) = Ok (gltf_face_bytes (65535 <? n) f ++ r)).
  { intros o ->. unfold gltf_bin. cbv zeta. rewrite !app_assoc, <- (app_assoc (_ ++ _)), index_bytes_eq.
    apply (from_offset_chunks (gltf_face_bytes (65535 <? n)) (if 65535 <? n then 12%nat else 6%nat) fs i f); [intros; apply gltf_face_len|exact E|].
    rewrite !zlen_app, positions_len, normals_len, texcoords_len. destruct (65535 <? n); lia. }
  cbv zeta. unfold gltf_face_back, index_back. destruct (65535 <? n) eqn:W; destruct (X _ eq_refl) as (r & ->); cbn [rbind]; unfold gltf_face_bytes, write_index;
    rewrite <- !app_assoc; repeat (rewrite ?next_w32_bytes, ?next_w16_bytes; cbn [rbind]); reflexivity.
Qed.
Lemma faces_back : Forall (face_within 0 (largest_index n)) fs -> map gltf_face_back fs = fs.
Proof.
  intros R. rewrite <- (map_id fs) at 2. apply map_ext_in. intros f I. rewrite Forall_forall in R. specialize (R f I). destruct f as [a b c].
  unfold face_within, largest_index in R. unfold gltf_face_back, index_back. cbn [f_0 f_1 f_2] in *. destruct (65535 <? n) eqn:W.
  - replace (n <=? 65535) with false in R by lia. rewrite !w32_to_Z_small by lia. reflexivity.
  - replace (n <=? 65535) with true in R by lia. rewrite !w16_to_Z_small by lia. reflexivity.
Qed.
Lemma u64_int z : 0 <= z < 18446744073709551616 -> u64 (int z) = Ok z.
Proof. intros H. unfold u64, int. replace (_ && _)%bool with true by lia. reflexivity. Qed.
Lemma vpx_normals_back (l : list wrapper) :
  map (fun v => match as_str v with Some s => s | None => [] end) (map (fun w => Jstr (hex_encode (stored_normal w))) l) = map (fun w => hex_encode (stored_normal w)) l.
Proof. rewrite map_map. reflexivity. Qed.
Lemma parse_gltf_back name uri : 32 * n < 18446744073709551616 -> 3 * zlen fs < 18446744073709551616 ->
  parse_gltf (gltf_json name vs fs uri) (gltf_bin vs fs) = Ok (name, map read_back vs, map gltf_face_back fs).
Proof.
  intros SV SF. pose proof (zlen_nonneg vs). pose proof (zlen_nonneg fs).
  unfold parse_gltf, gltf_json. cbv zeta. cbn [member last_member String.eqb Ascii.eqb Bool.eqb as_array].
  cbn [element nth member last_member String.eqb Ascii.eqb Bool.eqb as_array as_str option_map].
  rewrite vpx_normals_back. unfold vec_element. change (Z.to_nat 0) with 0%nat. change (Z.to_nat 1) with 1%nat. change (Z.to_nat 2) with 2%nat. change (Z.to_nat 3) with 3%nat.
  rewrite positions_len, normals_len, texcoords_len.
  repeat first [
    progress change (Z.to_nat 0) with 0%nat | progress change (Z.to_nat 1) with 1%nat | progress change (Z.to_nat 2) with 2%nat | progress change (Z.to_nat 3) with 3%nat
    | progress cbn [nth_error rbind accessor view app member last_member String.eqb Ascii.eqb Bool.eqb]
    | rewrite u64_int by (unfold COMPONENT_UNSIGNED_INT, COMPONENT_UNSIGNED_SHORT; destruct (65535 <? n); lia) ].
  replace (12 * n + 12 * n) with (24 * n) by lia. replace (24 * n + 8 * n) with (32 * n) by lia.
  replace (Z.to_nat n) with (List.length vs) by (unfold zlen; lia). rewrite (map_res_seq vs _ read_back (fun i x E => read_vertex_back i x E)). cbn [rbind].
  rewrite Z.div_mul by lia. replace (Z.to_nat (zlen fs)) with (List.length fs) by (unfold zlen; lia).
  replace ((if 65535 <? n then COMPONENT_UNSIGNED_INT else COMPONENT_UNSIGNED_SHORT) =? COMPONENT_UNSIGNED_INT) with (65535 <? n)
    by (destruct (65535 <? n); reflexivity).
  rewrite (map_res_seq fs _ gltf_face_back (fun i x E => read_face_back i x E)). reflexivity.
Qed.
End Read.

(** ** The files *)
Section Files.
Context {L : json_lib}.
Variable print : json -> bytes.
Variable parse : bytes -> res json.
Lemma write_glb_length name vs fs : let text := print (gltf_json name vs fs None) in
  zlen (write_glb print name vs fs) = 28 + (zlen text + Z.of_nat (padding (zlen text))) + zlen (gltf_bin vs fs).
Proof.
  cbv zeta. unfold write_glb. cbv zeta. rewrite !zlen_app, !zlen_w32_bytes. change (zlen GLTF_MAGIC) with 4. change (zlen GLB_JSON_CHUNK_TYPE) with 4. change (zlen GLB_BIN_CHUNK_TYPE) with 4.
  match goal with |- context [repeat x20 ?k] => replace (zlen (repeat x20 k)) with (Z.of_nat k) by (unfold zlen; rewrite repeat_length; reflexivity) end. lia.
Qed.
Lemma gltf_bin_len vs fs : zlen (gltf_bin vs fs) >= 32 * zlen vs + 6 * zlen fs.
Proof.
  unfold gltf_bin. cbv zeta. rewrite zlen_app, !zlen_app, positions_len, normals_len, texcoords_len, indices_len.
  match goal with |- context [repeat x00 ?k] => pose proof (zlen_nonneg (repeat x00 k)) end. pose proof (zlen_nonneg fs). destruct (65535 <? zlen vs); lia.
Qed.
Lemma next_4_app a b c e r : next_4 ([a; b; c; e] ++ r) = Ok ([a; b; c; e], r). Proof. reflexivity. Qed.
Lemma read_glb_back name vs fs : Forall full vs ->
  zlen (write_glb print name vs fs) < 4294967296 ->
  (forall k, parse (print (gltf_json name vs fs None) ++ repeat x20 k) = Ok (gltf_json name vs fs None)) ->
  read_glb parse (write_glb print name vs fs) = Ok (name, map read_back vs, map (gltf_face_back vs) fs).
Proof.
  intros F S P. pose proof (write_glb_length name vs fs) as E. cbv zeta in E. rewrite E in S. clear E. pose proof (gltf_bin_len vs fs).
  pose proof (zlen_nonneg vs). pose proof (zlen_nonneg fs). pose proof (zlen_nonneg (print (gltf_json name vs fs None))). pose proof (zlen_nonneg (gltf_bin vs fs)).
  unfold write_glb, read_glb. cbv zeta. unfold GLTF_MAGIC at 1. rewrite next_4_app. cbn [rbind]. change (bytes_eqb _ GLTF_MAGIC) with true. cbn [negb].
  rewrite next_w32_bytes. cbn [rbind]. rewrite w32_to_Z_small by (unfold GLTF_VERSION; lia). rewrite Z.eqb_refl. cbn [negb].
  rewrite next_w32_bytes. cbn [rbind]. rewrite next_w32_bytes. cbn [rbind]. unfold GLB_JSON_CHUNK_TYPE at 1. rewrite next_4_app. cbn [rbind].
  change (bytes_eqb _ GLB_JSON_CHUNK_TYPE) with true. cbn [negb]. rewrite w32_to_Z_small by lia.
  rewrite (app_assoc (print _)). rewrite split_at_app by (rewrite zlen_app; f_equal; unfold zlen; rewrite repeat_length; reflexivity). cbn [rbind].
  rewrite P. cbn [rbind]. rewrite next_w32_bytes. cbn [rbind]. unfold GLB_BIN_CHUNK_TYPE at 1. rewrite next_4_app. cbn [rbind].
  change (bytes_eqb _ GLB_BIN_CHUNK_TYPE) with true. cbn [negb]. rewrite w32_to_Z_small by lia.
  rewrite <- (app_nil_r (gltf_bin vs fs)) at 2. rewrite split_at_app by reflexivity. cbn [rbind]. apply parse_gltf_back; try assumption; lia.
Qed.
Lemma read_gltf_back name vs fs uri fetch : Forall full vs ->
  zlen (gltf_bin vs fs) < 18446744073709551616 ->
  parse (print (gltf_json name vs fs (Some uri))) = Ok (gltf_json name vs fs (Some uri)) ->
  starts_with (lit "data:") uri = false -> fetch uri = Some (snd (write_gltf print name vs fs uri)) ->
  read_gltf parse (fst (write_gltf print name vs fs uri)) fetch = Ok (name, map read_back vs, map (gltf_face_back vs) fs).
Proof.
  intros F S P U FE. pose proof (gltf_bin_len vs fs). pose proof (zlen_nonneg vs). pose proof (zlen_nonneg fs).
  unfold read_gltf. cbn [fst snd write_gltf] in FE |- *. rewrite P. cbn [rbind].
  unfold gltf_json at 1. cbv zeta. cbn [member last_member String.eqb Ascii.eqb Bool.eqb element nth as_str]. rewrite U, FE. apply parse_gltf_back; try assumption; lia.
Qed.
End Files.

(** ** The bounding box *)
Lemma le_trans a b c : SFleb a b = true -> SFleb b c = true -> SFleb a c = true.
Proof.
  unfold SFleb, SFcompare. destruct a as [s|[]| |[] m e], b as [s'|[]| |[] m' e'], c as [s''|[]| |[] m'' e'']; try discriminate; try reflexivity;
    change (Pos.compare_cont Eq) with Pos.compare;
    destruct (Z.compare_spec e e'), (Z.compare_spec e' e''), (Z.compare_spec e e''); try lia; try discriminate; try reflexivity; 
    destruct (Pos.compare_spec m m'), (Pos.compare_spec m' m''), (Pos.compare_spec m m''); cbn [CompOpp]; try lia; try discriminate; try reflexivity.
Qed.
Lemma le_refl_sf a : a <> S754_nan -> SFleb a a = true.
Proof.
  unfold SFleb, SFcompare. destruct a as [s|[]| |[] m e]; try reflexivity; try congruence; intros _; rewrite Z.compare_refl; change (Pos.compare_cont Eq) with Pos.compare; rewrite Pos.compare_refl; reflexivity.
Qed.
Lemma le_total a b : a <> S754_nan -> b <> S754_nan -> SFltb b a = false -> SFleb a b = true.
Proof.
  unfold SFleb, SFltb, SFcompare. destruct a as [s|[]| |[] m e], b as [s'|[]| |[] m' e']; try congruence; intros _ _; try discriminate; try reflexivity;
    change (Pos.compare_cont Eq) with Pos.compare;
    destruct (Z.compare_spec e e'), (Z.compare_spec e' e); try lia; try discriminate; try reflexivity; 
    destruct (Pos.compare_spec m m'), (Pos.compare_spec m' m); cbn [CompOpp]; try lia; try discriminate; try reflexivity.
Qed.
Lemma lt_le a b : SFltb a b = true -> SFleb a b = true.
Proof. unfold SFltb, SFleb. destruct (SFcompare a b) as [[]|]; congruence. Qed.

Section Bounds.
Variable c : Vtx -> f32.
Notation val w := (f32_value (c (w_vertex w))).
Lemma fold_low vs : forall m, f32_is_nan m = false -> let r := fold_left (fun m w => f32_min m (c (w_vertex w))) vs m in
  f32_is_nan r = false /\ SFleb (f32_value r) (f32_value m) = true /\
  (forall w, In w vs -> f32_is_nan (c (w_vertex w)) = false -> SFleb (f32_value r) (val w) = true) /\
  (r = m \/ exists w, In w vs /\ f32_is_nan (c (w_vertex w)) = false /\ c (w_vertex w) = r).
Proof.
  induction vs as [|w vs IH]; intros m M; cbn [fold_left].
  - cbv zeta. split; [exact M|]. split; [apply le_refl_sf, nan_value, M|]. split; [intros ? []|left; reflexivity].
  - unfold f32_min at 2 4 6 8 10. rewrite M. destruct (f32_is_nan (c (w_vertex w))) eqn:N.
    + destruct (IH m M) as (A & B & C & D). cbv zeta. split; [exact A|]. split; [exact B|]. split.
      * intros w' [<-|I] N'; [congruence|]. apply C; assumption.
      * destruct D as [D|(w' & I & D)]; [left; exact D|right; exists w'; split; [right; exact I|exact D]].
    + destruct (SFltb (val w) (f32_value m)) eqn:LT.
      * destruct (IH (c (w_vertex w)) N) as (A & B & C & D). cbv zeta. split; [exact A|]. split; [exact (le_trans _ _ _ B (lt_le _ _ LT))|]. split.
        -- intros w' [<-|I] N'; [exact B|]. apply C; assumption.
        -- right. destruct D as [D|(w' & I & D)]; [exists w; split; [left; reflexivity|split; [exact N|symmetry; exact D]]|exists w'; split; [right; exact I|exact D]].
      * destruct (IH m M) as (A & B & C & D). cbv zeta. split; [exact A|]. split; [exact B|]. split.
        -- intros w' [<-|I] N'; [|apply C; assumption]. exact (le_trans _ _ _ B (le_total _ _ (nan_value _ M) (nan_value _ N) LT)).
        -- destruct D as [D|(w' & I & D)]; [left; exact D|right; exists w'; split; [right; exact I|exact D]].
Qed.
Lemma fold_high vs : forall m, f32_is_nan m = false -> let r := fold_left (fun m w => f32_max m (c (w_vertex w))) vs m in
  f32_is_nan r = false /\ SFleb (f32_value m) (f32_value r) = true /\
  (forall w, In w vs -> f32_is_nan (c (w_vertex w)) = false -> SFleb (val w) (f32_value r) = true) /\
  (r = m \/ exists w, In w vs /\ f32_is_nan (c (w_vertex w)) = false /\ c (w_vertex w) = r).
Proof.
  induction vs as [|w vs IH]; intros m M; cbn [fold_left].
  - cbv zeta. split; [exact M|]. split; [apply le_refl_sf, nan_value, M|]. split; [intros ? []|left; reflexivity].
  - unfold f32_max at 2 4 6 8 10. rewrite M. destruct (f32_is_nan (c (w_vertex w))) eqn:N.
    + destruct (IH m M) as (A & B & C & D). cbv zeta. split; [exact A|]. split; [exact B|]. split.
      * intros w' [<-|I] N'; [congruence|]. apply C; assumption.
      * destruct D as [D|(w' & I & D)]; [left; exact D|right; exists w'; split; [right; exact I|exact D]].
    + destruct (SFltb (f32_value m) (val w)) eqn:LT.
      * destruct (IH (c (w_vertex w)) N) as (A & B & C & D). cbv zeta. split; [exact A|]. split; [exact (le_trans _ _ _ (lt_le _ _ LT) B)|]. split.
        -- intros w' [<-|I] N'; [exact B|]. apply C; assumption.
        -- right. destruct D as [D|(w' & I & D)]; [exists w; split; [left; reflexivity|split; [exact N|symmetry; exact D]]|exists w'; split; [right; exact I|exact D]].
      * destruct (IH m M) as (A & B & C & D). cbv zeta. split; [exact A|]. split; [exact B|]. split.
        -- intros w' [<-|I] N'; [|apply C; assumption]. exact (le_trans _ _ _ (le_total _ _ (nan_value _ N) (nan_value _ M) LT) B).
        -- destruct D as [D|(w' & I & D)]; [left; exact D|right; exists w'; split; [right; exact I|exact D]].
Qed.
Lemma value_same x y : f32_is_nan x = false -> f32_is_nan y = false -> f32_value x = f32_value y -> x = y.
Proof. intros X Y E. rewrite <- (bits_value x X), <- (bits_value y Y), E. reflexivity. Qed.
Lemma low_least vs : (exists w, In w vs /\ f32_is_nan (c (w_vertex w)) = false) -> least c vs (low c vs).
Proof.
  intros (w0 & I0 & N0). destruct (fold_low vs f32_infinity eq_refl) as (A & B & C & D). split; [|exact C].
  destruct D as [D|D]; [|destruct D as (w & I & N & E); exists w; auto].
  exists w0. split; [exact I0|]. unfold low, bound. rewrite D in C |- *. split; [exact N0|]. apply value_same; [exact N0|reflexivity|]. specialize (C w0 I0 N0).
  revert C. unfold SFleb, SFcompare. change (f32_value f32_infinity) with (S754_infinity false). destruct (val w0) as [|[]| |]; congruence.
Qed.
Lemma high_greatest vs : (exists w, In w vs /\ f32_is_nan (c (w_vertex w)) = false) -> greatest c vs (high c vs).
Proof.
  intros (w0 & I0 & N0). destruct (fold_high vs f32_neg_infinity eq_refl) as (A & B & C & D). split; [|exact C].
  destruct D as [D|D]; [|destruct D as (w & I & N & E); exists w; auto].
  exists w0. split; [exact I0|]. unfold high, bound. rewrite D in C |- *. split; [exact N0|]. apply value_same; [exact N0|reflexivity|]. specialize (C w0 I0 N0).
  revert C. unfold SFleb, SFcompare. change (f32_value f32_neg_infinity) with (S754_infinity true). destruct (val w0) as [|[]| |[]]; congruence.
Qed.
End Bounds.

(** ** A reader that follows the specification *)
Section Standard.
Context {L : json_lib}.
Lemma accessor_data_ok doc bin pre mid post k component kind count more views accs a :
  field "accessors" (Some doc) = Some (Jarr accs) -> field "bufferViews" (Some doc) = Some (Jarr views) ->
  0 <= k -> at_index accs k = Some (accessor k component count kind more) -> at_index views k = Some (view (zlen pre) (zlen mid) a) ->
  bin = pre ++ mid ++ post -> zlen pre mod 4 = 0 ->
  accessor_data doc bin (Some k) = Some (component, lit kind, count, mid).
Proof.
  intros A V K E1 E2 -> M. unfold accessor_data. rewrite A, V. cbn [item]. rewrite E1. cbn [field accessor app lookup String.eqb Ascii.eqb Bool.eqb number int].
  rewrite E2. cbn [field view lookup String.eqb Ascii.eqb Bool.eqb number int str]. rewrite !zlen_app. pose proof (zlen_nonneg pre). pose proof (zlen_nonneg mid). pose proof (zlen_nonneg post).
  replace (_ && _)%bool with true by lia. do 2 f_equal. unfold zlen. rewrite !Nat2Z.id, skipn_app, skipn_all, Nat.sub_diag. cbn [skipn app].
  rewrite firstn_app, firstn_all, Nat.sub_diag. cbn [firstn]. apply app_nil_r.
Qed.
Variables (name : rstring) (vs : list wrapper) (fs : list face) (uri : option rstring).
Lemma scene_mesh_ok : exists more, scene_mesh (gltf_json name vs fs uri) = Some (Jobj [("name"%string, Jstr name); ("primitives"%string, Jarr [Jobj ([
      ("attributes"%string, Jobj [("POSITION"%string, int 0); ("NORMAL"%string, int 1); ("TEXCOORD_0"%string, int 2)]);
      ("indices"%string, int 3); ("mode"%string, int 4)] ++ more)])]).
Proof. eexists. unfold scene_mesh, gltf_json. cbv zeta. cbn [field lookup String.eqb Ascii.eqb Bool.eqb number item int]. reflexivity. Qed.
Lemma standard_ok : let doc := gltf_json name vs fs uri in let bin := gltf_bin vs fs in
  attribute doc bin "POSITION" = Some (COMPONENT_FLOAT, lit "VEC3", zlen vs, flat_map position_bytes vs) /\
  attribute doc bin "NORMAL" = Some (COMPONENT_FLOAT, lit "VEC3", zlen vs, flat_map normal_bytes vs) /\
  attribute doc bin "TEXCOORD_0" = Some (COMPONENT_FLOAT, lit "VEC2", zlen vs, flat_map texcoord_bytes vs) /\
  triangles doc bin = Some (if 65535 <? zlen vs then COMPONENT_UNSIGNED_INT else COMPONENT_UNSIGNED_SHORT, lit "SCALAR", zlen fs * 3, index_bytes (zlen vs) fs).
Proof.
  cbv zeta. destruct scene_mesh_ok as (more & E). unfold attribute, triangles. rewrite E. clear E.
  cbn [field lookup String.eqb Ascii.eqb Bool.eqb item at_index Z.ltb Z.compare Z.to_nat nth_error app number int].
  unfold gltf_bin. cbv zeta. rewrite <- !app_assoc.
  repeat split.
  - eapply (accessor_data_ok _ _ [] (flat_map position_bytes vs)); [reflexivity|reflexivity|lia|reflexivity|reflexivity|reflexivity|reflexivity].
  - eapply (accessor_data_ok _ _ (flat_map position_bytes vs) (flat_map normal_bytes vs)); [reflexivity|reflexivity|lia|reflexivity|reflexivity|reflexivity|].
    rewrite positions_len. Z.div_mod_to_equations. lia.
  - eapply (accessor_data_ok _ _ (flat_map position_bytes vs ++ flat_map normal_bytes vs) (flat_map texcoord_bytes vs)); [reflexivity|reflexivity|lia|reflexivity| | |].
    + cbn [at_index Z.ltb Z.compare Z.to_nat nth_error Pos.to_nat Pos.iter_op Nat.add]. rewrite zlen_app. reflexivity.
    + rewrite <- app_assoc. reflexivity.
    + rewrite zlen_app, positions_len, normals_len. Z.div_mod_to_equations. lia.
  - eapply (accessor_data_ok _ _ (flat_map position_bytes vs ++ flat_map normal_bytes vs ++ flat_map texcoord_bytes vs) (index_bytes (zlen vs) fs)); [reflexivity|reflexivity|lia|reflexivity| | |].
    + cbn [at_index Z.ltb Z.compare Z.to_nat nth_error Pos.to_nat Pos.iter_op Nat.add]. rewrite !zlen_app, Z.add_assoc. reflexivity.
    + rewrite <- !app_assoc. reflexivity.
    + rewrite !zlen_app, positions_len, normals_len, texcoords_len. Z.div_mod_to_equations. lia.
Qed.
End Standard.

(** ** Files cut off *)
Lemma next_4_cut a b c e r (k : nat) : (k < 4 -> next_4 (firstn k ([a; b; c; e] ++ r)) = Err)%nat /\ (4 <= k -> next_4 (firstn k ([a; b; c; e] ++ r)) = Ok ([a; b; c; e], firstn (k - 4) r))%nat.
Proof. destruct k as [|[|[|[|k]]]]; (split; intros H; [try lia|try lia]); try reflexivity. cbn [Nat.sub]. rewrite Nat.sub_0_r. reflexivity. Qed.
Lemma next_w32_cut w r k : (k < 4 -> next_w32 (firstn k (w32_bytes w ++ r)) = Err)%nat /\ (4 <= k -> next_w32 (firstn k (w32_bytes w ++ r)) = Ok (w, firstn (k - 4) r))%nat.
Proof. destruct w. destruct k as [|[|[|[|k]]]]; (split; intros H; [try lia|try lia]); try reflexivity. cbn [Nat.sub]. rewrite Nat.sub_0_r. reflexivity. Qed.
Lemma split_at_cut (a r : bytes) n k : n = zlen a -> ((k < List.length a)%nat -> split_at n (firstn k (a ++ r)) = Panic) /\
  ((List.length a <= k)%nat -> split_at n (firstn k (a ++ r)) = Ok (a, firstn (k - List.length a) r)).
Proof.
  intros ->. split; intros H.
  - unfold split_at. replace (_ <=? _) with false; [reflexivity|]. symmetry. apply Z.leb_gt. unfold zlen. rewrite firstn_length. lia.
  - rewrite firstn_app, firstn_all2 by exact H. apply split_at_app. reflexivity.
Qed.
Section Cut.
Context {L : json_lib}.
Variable print : json -> bytes.
Variable parse : bytes -> res json.
Lemma read_glb_cut name vs fs k : zlen (write_glb print name vs fs) < 4294967296 -> (k < List.length (write_glb print name vs fs))%nat ->
  exists f, read_glb parse (firstn k (write_glb print name vs fs)) = Fail f.
Proof.
  intros S K. pose proof (write_glb_length print name vs fs) as E. cbv zeta in E. rewrite E in S. assert (K' : Z.of_nat k < zlen (write_glb print name vs fs)) by (unfold zlen; lia).
  rewrite E in K'. clear K E. revert S K'.
  unfold write_glb, read_glb. cbv zeta. set (text := print _). set (bin := gltf_bin vs fs). set (pad := padding (zlen text)). intros S K.
  pose proof (zlen_nonneg bin).
  rewrite (app_assoc text).
  assert (TL : zlen (text ++ repeat x20 pad) = zlen text + Z.of_nat pad) by (rewrite zlen_app; f_equal; unfold zlen; rewrite repeat_length; reflexivity).
  set (t := text ++ repeat x20 pad) in *. clearbody t. rewrite <- TL in *. clearbody bin. clear TL pad text. pose proof (zlen_nonneg t).
  unfold GLTF_MAGIC at 1. destruct (Nat.lt_ge_cases k 4) as [Q|Q]; [rewrite (proj1 (next_4_cut _ _ _ _ _ _)) by lia; eexists; reflexivity|rewrite (proj2 (next_4_cut _ _ _ _ _ _)) by lia].
  cbn [rbind]. change (bytes_eqb _ GLTF_MAGIC) with true. cbn [negb].
  destruct (Nat.lt_ge_cases k 8) as [Q1|Q1]; [rewrite (proj1 (next_w32_cut _ _ _)) by lia; eexists; reflexivity|rewrite (proj2 (next_w32_cut _ _ _)) by lia].
  cbn [rbind]. rewrite w32_to_Z_small by (unfold GLTF_VERSION; lia). rewrite Z.eqb_refl. cbn [negb].
  destruct (Nat.lt_ge_cases k 12) as [Q2|Q2]; [rewrite (proj1 (next_w32_cut _ _ _)) by lia; eexists; reflexivity|rewrite (proj2 (next_w32_cut _ _ _)) by lia]. cbn [rbind].
  destruct (Nat.lt_ge_cases k 16) as [Q3|Q3]; [rewrite (proj1 (next_w32_cut _ _ _)) by lia; eexists; reflexivity|rewrite (proj2 (next_w32_cut _ _ _)) by lia]. cbn [rbind].
  unfold GLB_JSON_CHUNK_TYPE at 1. destruct (Nat.lt_ge_cases k 20) as [Q4|Q4]; [rewrite (proj1 (next_4_cut _ _ _ _ _ _)) by lia; eexists; reflexivity|rewrite (proj2 (next_4_cut _ _ _ _ _ _)) by lia]. cbn [rbind].
  change (bytes_eqb _ GLB_JSON_CHUNK_TYPE) with true. cbn [negb]. rewrite w32_to_Z_small by lia.
  destruct (Nat.lt_ge_cases k (20 + List.length t)) as [Q5|Q5]; [rewrite (proj1 (split_at_cut _ _ _ _ eq_refl)) by lia; eexists; reflexivity|rewrite (proj2 (split_at_cut _ _ _ _ eq_refl)) by lia]. cbn [rbind].
  destruct (parse t) as [j|f]; [|eexists; reflexivity]. cbn [rbind].
  destruct (Nat.lt_ge_cases k (24 + List.length t)) as [Q6|Q6]; [rewrite (proj1 (next_w32_cut _ _ _)) by lia; eexists; reflexivity|rewrite (proj2 (next_w32_cut _ _ _)) by lia]. cbn [rbind].
  unfold GLB_BIN_CHUNK_TYPE at 1. destruct (Nat.lt_ge_cases k (28 + List.length t)) as [Q7|Q7]; [rewrite (proj1 (next_4_cut _ _ _ _ _ _)) by lia; eexists; reflexivity|rewrite (proj2 (next_4_cut _ _ _ _ _ _)) by lia]. cbn [rbind].
  change (bytes_eqb _ GLB_BIN_CHUNK_TYPE) with true. cbn [negb]. rewrite w32_to_Z_small by lia.
  rewrite <- (app_nil_r bin). rewrite (proj1 (split_at_cut bin [] (zlen (bin ++ [])) _ ltac:(rewrite app_nil_r; reflexivity))); [eexists; reflexivity|]. unfold zlen in K. lia.
Qed.
End Cut.

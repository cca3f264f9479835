(** C02 (items), C03, C07, C08, C09, C21, C38 and C40: game items. *)
From Coq Require Import Sorted SpecFloat.
From Verif Require Import Base Text Biff Quantize Common Enums ItemBase GameItem.
From Verif Require Import ItemWall ItemPrimitive ItemBall ItemPartGroup.
From Verif Require Import SpecBiff SpecItems RecordFacts GameItemFacts GameItemStored QuantizeMono ItemPieces ItemProps.

(** A game item exercising most of the codec: a wall with two drag points, optional fields and a quantised value. *)
Definition example_wall : GameItem :=
  GI_Wall (set_Wall_name (lit "Wall" ++ [0x20AC; 0x1F600]%N)
    (set_Wall_drag_points [DragPoint_default; set_dp_xy (Z_to_w32 1065353216) (Z_to_w32 1073741824) DragPoint_default]
      (set_Wall_disable_lighting_top_old (Some (dequantize_unsigned_8 (Z_to_w32 77)))
        (set_Wall_part_group_name (Some (lit "Group"))
          (set_Wall_image (lit "im" ++ [0xE9%N]) Wall_default))))).
Definition example_ball : GameItem := GI_Ball (set_Ball_part_group_name (Some (lit "G")) Ball_default).

(** * C02: reading any byte string as a game item ends *)
Theorem C02_game_item_read_terminates : forall checked input, gameitem_read checked input <> OutOfFuel.
Proof. exact gameitem_read_terminates. Qed.
Print Assumptions C02_game_item_read_terminates.

(** * C03: unknown records *)
(** The bytes written for an item split into pieces, and putting records with tags its reader does not know anywhere
    between them, or between the records of its drag points, does not change what is read.  [GI_stored] is the identity
    except on the values that do not survive storing, see C07. *)
Theorem C03_unknown_records_are_skipped : forall i,
  GI_writable i = true -> GameItem_ok (GI_stored i) = true ->
  exists type ps, gameitem_write i = Ok (item_bytes type ps) /\
    forall ps' checked, ItemInserted (GameItem_tags i) (map fst DragPoint_arms) ps ps' ->
      gameitem_read checked (item_bytes type ps') = Ok (GI_stored i).
Proof. exact inserted_read. Qed.
Print Assumptions C03_unknown_records_are_skipped.
Example C03_example : GI_writable example_wall = true /\ GameItem_ok (GI_stored example_wall) = true /\
  ~ In "XYZ"%string (GameItem_tags example_wall) /\ ~ In "XYZ"%string (map fst DragPoint_arms).
Proof.
  repeat split; try (vm_compute; reflexivity); intros H; vm_compute in H; repeat destruct H as [H|H]; try discriminate H; exact H.
Qed.

(** * C07: round trip *)
(** Every item whose strings and sizes are representable ([GameItem_ok]) is read back equal ... *)
Theorem C07_game_item_round_trip : forall i, GameItem_ok i = true ->
  exists b, gameitem_write i = Ok b /\ forall checked, gameitem_read checked b = Ok i.
Proof. exact gameitem_roundtrip. Qed.
Print Assumptions C07_game_item_round_trip.
(** ... and in general what is read back is the stored form of the item, which differs from the item only in the
    quantised lighting field and in unpaired animation frames. *)
Theorem C07_what_is_stored : forall i, GI_writable i = true -> GameItem_ok (GI_stored i) = true ->
  exists b, gameitem_write i = Ok b /\ forall checked, gameitem_read checked b = Ok (GI_stored i).
Proof. exact gameitem_stored_roundtrip. Qed.
Print Assumptions C07_what_is_stored.
Example C07_example : GameItem_ok example_wall = true.
Proof. vm_compute. reflexivity. Qed.
Example C07_example_bytes : match gameitem_write example_ball with Ok b => gameitem_read true b = Ok example_ball | _ => False end.
Proof. vm_compute. reflexivity. Qed.

(** * C08: saving what was read *)
(** Any accepted byte string below 4 GiB: the item can be written, and reading that gives its stored form, from which
    nothing changes any more: writing it gives the same bytes. *)
Theorem C08_resave_reaches_a_fixed_point : forall checked b i,
  zlen b < 2 ^ 32 - 8 -> gameitem_read checked b = Ok i -> (forall t g, i <> GI_Generic t g) ->
  exists b', gameitem_write i = Ok b' /\ (forall checked', gameitem_read checked' b' = Ok (GI_stored i)) /\
             gameitem_write (GI_stored i) = Ok b'.
Proof. exact resave. Qed.
Print Assumptions C08_resave_reaches_a_fixed_point.
(** The stored form is the item itself, apart from primitives whose animation frames lack their length or data. *)
Theorem C08_resave_is_lossless : forall checked b i,
  zlen b < 2 ^ 32 - 8 -> gameitem_read checked b = Ok i ->
  (forall v, i = GI_Primitive v -> frames_paired v) -> GI_stored i = i.
Proof. exact resave_same. Qed.
Print Assumptions C08_resave_is_lossless.
Example C08_example : gameitem_read true (le32 23 ++ stream_bytes [("XYZ"%string, [x2a]); ("GRUP"%string, le32 1 ++ [x47])]) = Ok example_ball.
Proof. vm_compute. reflexivity. Qed.
(** The proviso is needed: a primitive with a frame length but no frame data loses it ... *)
Theorem C08_unpaired_frames_refuted : exists b i b' j,
  gameitem_read true b = Ok i /\ gameitem_write i = Ok b' /\ gameitem_read true b' = Ok j /\ i <> j.
Proof.
  exists (le32 19 ++ stream_bytes [("M3AY", le32 7)]%string). do 3 eexists.
  split; [vm_compute; reflexivity|]. split; [vm_compute; reflexivity|]. split; [vm_compute; reflexivity|]. discriminate.
Qed.
Print Assumptions C08_unpaired_frames_refuted.
(** ... and items of unknown types cannot be written at all. *)
Theorem C08_generic_items_refuted : exists b i,
  gameitem_read true b = Ok i /\ gameitem_write i = Panic.
Proof. exists (le32 99 ++ stream_bytes [("ABCD", [x2a])]%string). eexists. split; [vm_compute; reflexivity|reflexivity]. Qed.
Print Assumptions C08_generic_items_refuted.

(** * C09: type dispatch *)
(** What is read starts with the type number of its kind, and the kinds without a type of their own are read only for
    numbers above 24. *)
Theorem C09_kind_read_is_the_type_in_the_file : forall checked b i, gameitem_read checked b = Ok i ->
  exists t : u32, firstn 4 b = le32 (w32_to_Z t) /\
    match i with
    | GI_Generic t' _ => t' = t /\ ~ (0 <= w32_to_Z t <= 24)
    | _ => GI_type_id (GI_type_name i) = Ok (w32_to_Z t)
    end.
Proof. exact read_dispatch. Qed.
Print Assumptions C09_kind_read_is_the_type_in_the_file.
(** What is written starts with the type number of the item's kind; reading it gives the item, see C07. *)
Theorem C09_type_written_is_the_kind : forall i, GI_writable i = true -> GameItem_ok (GI_stored i) = true ->
  exists b n, gameitem_write i = Ok b /\ GI_type_id (GI_type_name i) = Ok n /\ firstn 4 b = le32 n.
Proof. exact write_dispatch. Qed.
Print Assumptions C09_type_written_is_the_kind.
(** Unknown types are read as generic items with all their records, whatever these are ... *)
Theorem C09_unknown_types_are_generic : forall checked (t : u32) (name : rstring) rs,
  ~ (0 <= w32_to_Z t <= 24) -> Forall scalar_value name -> zlen (encode_utf16le name) < 2 ^ 32 - 8 ->
  Forall valid_record rs -> Forall (fun r => fst r <> "NAME"%string) rs ->
  gameitem_read checked (le32 (w32_to_Z t) ++ stream_bytes (("NAME"%string, le32 (zlen (encode_utf16le name)) ++ encode_utf16le name) :: rs))
  = Ok (GI_Generic t (mkGeneric name rs)).
Proof. exact read_generic. Qed.
Print Assumptions C09_unknown_types_are_generic.
(** ... and cannot be written. *)
Theorem C09_generic_items_cannot_be_written : forall t g, gameitem_write (GI_Generic t g) = Panic.
Proof. exact generic_write. Qed.
Print Assumptions C09_generic_items_cannot_be_written.
(** The four reserved numbers 13 to 16 (table, light centre, drag point, collection) panic. *)
Theorem C09_reserved_types_panic : forall checked b (t : u32),
  13 <= w32_to_Z t <= 16 -> firstn 4 b = w32_bytes t -> gameitem_read checked b = Panic.
Proof. exact read_reserved. Qed.
Print Assumptions C09_reserved_types_panic.
Example C09_example : GI_type_id (GI_type_name example_wall) = Ok 0 /\ GI_type_id (GI_type_name example_ball) = Ok 23.
Proof. split; reflexivity. Qed.

(** * C21: quantisation *)
(** Quantising is defined exactly on the values that are not negative (and not NaN), the result is a valid code,
    codes are stable, and quantising is monotone.  8 bits as 32-bit number, percent, and 7 or 8 bits as a byte. *)
Theorem C21_quantise_8 :
  (forall x, (exists q, quantize_unsigned_8 x = Ok q) <-> SFleb (S754_zero false) (f32_value x) = true) /\
  (forall x q, quantize_unsigned_8 x = Ok q -> w32_to_Z q <= 255) /\
  (forall q, w32_to_Z q <= 255 -> quantize_unsigned_8 (dequantize_unsigned_8 q) = Ok q) /\
  (forall x y p q, SFleb (f32_value x) (f32_value y) = true ->
     quantize_unsigned_8 x = Ok p -> quantize_unsigned_8 y = Ok q -> w32_to_Z p <= w32_to_Z q).
Proof. exact quantise_8_all. Qed.
Print Assumptions C21_quantise_8.
Theorem C21_quantise_percent :
  (forall x, (exists q, quantize_unsigned_percent x = Ok q) <-> SFleb (S754_zero false) (f32_value x) = true) /\
  (forall x q, quantize_unsigned_percent x = Ok q -> w32_to_Z q <= 100) /\
  (forall q, w32_to_Z q <= 100 -> quantize_unsigned_percent (dequantize_unsigned_percent q) = Ok q) /\
  (forall x y p q, SFleb (f32_value x) (f32_value y) = true ->
     quantize_unsigned_percent x = Ok p -> quantize_unsigned_percent y = Ok q -> w32_to_Z p <= w32_to_Z q).
Proof. exact quantise_percent_all. Qed.
Print Assumptions C21_quantise_percent.
Theorem C21_quantise_u8 : forall bits, bits = 7 \/ bits = 8 ->
  (forall x, (exists q, quantize_u8 bits x = Ok q) <-> SFleb (S754_zero false) (f32_value x) = true) /\
  (forall x q, quantize_u8 bits x = Ok q -> byte_to_Z q < 2 ^ bits) /\
  (forall q, byte_to_Z q < 2 ^ bits -> quantize_u8 bits (dequantize_u8 bits q) = Ok q) /\
  (forall x y p q, SFleb (f32_value x) (f32_value y) = true ->
     quantize_u8 bits x = Ok p -> quantize_u8 bits y = Ok q -> byte_to_Z p <= byte_to_Z q).
Proof. exact quantise_u8_all. Qed.
Print Assumptions C21_quantise_u8.
(** 0.5 and 1.0 *)
Example C21_example : quantize_unsigned_8 (Z_to_w32 1056964608) = Ok (Z_to_w32 128) /\
  quantize_u8 7 (Z_to_w32 1065353216) = Ok (Z_to_byte 127) /\ quantize_unsigned_percent (Z_to_w32 1056964608) = Ok (Z_to_w32 50).
Proof. repeat split; vm_compute; reflexivity. Qed.

(** * C38: part group order *)
(** There is a warning about an item exactly if it refers to a group and no part group of that name is at or before it;
    warnings come in the order of the items, at most one for each. *)
Theorem C38_warnings_are_exact : forall items w,
  In w (validate_part_group_order items) <->
  exists j i g, nth_error items j = Some i /\ GI_part_group_name i = Some g /\
                (forall j', (j' <= j)%nat -> ~ exists v, nth_error items j' = Some (GI_PartGroup v) /\ PartGroup_name v = g) /\
                w = mkPGW j (GI_name i) (GI_type_name i) g.
Proof. exact validate_exact. Qed.
Print Assumptions C38_warnings_are_exact.
Theorem C38_warnings_are_ordered : forall items, StronglySorted lt (map pgw_index (validate_part_group_order items)).
Proof. exact (fun items => proj1 (validate_from_sorted items 0 [])). Qed.
Print Assumptions C38_warnings_are_ordered.
Example C38_example :
  let group := GI_PartGroup (set_PartGroup_name (lit "G") PartGroup_default) in
  map pgw_index (validate_part_group_order [example_ball; group; example_ball; example_wall]) = [0; 3]%nat.
Proof. vm_compute. reflexivity. Qed.

(** * C40: editor attributes *)
(** Setting and getting each attribute: the value set is the value read, setting the present value changes nothing,
    the last value set counts, and all the other attributes stay. *)
Theorem C40_lock : forall i,
  (forall x, (forall t g, i <> GI_Generic t g) -> GI_is_locked (GI_set_locked (Some x) i) = Some x) /\
  GI_set_locked (GI_is_locked i) i = i /\
  (forall x y, GI_set_locked (Some y) (GI_set_locked x i) = GI_set_locked (Some y) i) /\
  (forall x, same_elsewhere i (GI_set_locked x i) /\
     GI_editor_layer (GI_set_locked x i) = GI_editor_layer i /\ GI_editor_layer_name (GI_set_locked x i) = GI_editor_layer_name i /\
     GI_editor_layer_visibility (GI_set_locked x i) = GI_editor_layer_visibility i).
Proof. exact (fun i => conj (fun x => locked_get x i) (conj (locked_put i) (conj (fun x y => locked_put_put x y i) (fun x => set_locked_elsewhere x i)))). Qed.
Print Assumptions C40_lock.
Theorem C40_layer : forall i,
  (forall x, ~ no_layer i -> GI_editor_layer (GI_set_editor_layer x i) = x) /\
  GI_set_editor_layer (GI_editor_layer i) i = i /\
  (forall x y, GI_set_editor_layer y (GI_set_editor_layer x i) = GI_set_editor_layer y i) /\
  (forall x, same_elsewhere i (GI_set_editor_layer x i) /\
     GI_is_locked (GI_set_editor_layer x i) = GI_is_locked i /\ GI_editor_layer_name (GI_set_editor_layer x i) = GI_editor_layer_name i /\
     GI_editor_layer_visibility (GI_set_editor_layer x i) = GI_editor_layer_visibility i).
Proof. exact (fun i => conj (fun x => layer_get x i) (conj (layer_put i) (conj (fun x y => layer_put_put x y i) (fun x => set_layer_elsewhere x i)))). Qed.
Print Assumptions C40_layer.
Theorem C40_layer_name : forall i,
  (forall x, ~ is_generic i -> GI_editor_layer_name (GI_set_editor_layer_name x i) = x) /\
  GI_set_editor_layer_name (GI_editor_layer_name i) i = i /\
  (forall x y, GI_set_editor_layer_name y (GI_set_editor_layer_name x i) = GI_set_editor_layer_name y i) /\
  (forall x, same_elsewhere i (GI_set_editor_layer_name x i) /\
     GI_is_locked (GI_set_editor_layer_name x i) = GI_is_locked i /\ GI_editor_layer (GI_set_editor_layer_name x i) = GI_editor_layer i /\
     GI_editor_layer_visibility (GI_set_editor_layer_name x i) = GI_editor_layer_visibility i).
Proof. exact (fun i => conj (fun x => layer_name_get x i) (conj (layer_name_put i) (conj (fun x y => layer_name_put_put x y i) (fun x => set_layer_name_elsewhere x i)))). Qed.
Print Assumptions C40_layer_name.
Theorem C40_layer_visibility : forall i,
  (forall x, ~ is_generic i -> GI_editor_layer_visibility (GI_set_editor_layer_visibility x i) = x) /\
  GI_set_editor_layer_visibility (GI_editor_layer_visibility i) i = i /\
  (forall x y, GI_set_editor_layer_visibility y (GI_set_editor_layer_visibility x i) = GI_set_editor_layer_visibility y i) /\
  (forall x, same_elsewhere i (GI_set_editor_layer_visibility x i) /\
     GI_is_locked (GI_set_editor_layer_visibility x i) = GI_is_locked i /\ GI_editor_layer (GI_set_editor_layer_visibility x i) = GI_editor_layer i /\
     GI_editor_layer_name (GI_set_editor_layer_visibility x i) = GI_editor_layer_name i).
Proof. exact (fun i => conj (fun x => layer_vis_get x i) (conj (layer_vis_put i) (conj (fun x y => layer_vis_put_put x y i) (fun x => set_layer_vis_elsewhere x i)))). Qed.
Print Assumptions C40_layer_visibility.
(** Restoring the four attributes of an item on a copy of it in which they are arbitrary gives the item. *)
Theorem C40_attributes_are_restored : forall i x y z w,
  GI_set_locked (GI_is_locked i) (GI_set_editor_layer (GI_editor_layer i)
    (GI_set_editor_layer_name (GI_editor_layer_name i) (GI_set_editor_layer_visibility (GI_editor_layer_visibility i)
      (GI_set_locked (Some x) (GI_set_editor_layer y (GI_set_editor_layer_name z (GI_set_editor_layer_visibility w i)))))))
  = i.
Proof. exact restored. Qed.
Print Assumptions C40_attributes_are_restored.
Example C40_example : ~ no_layer example_wall /\ ~ is_generic example_wall /\ GI_is_locked example_wall = Some false.
Proof. repeat split; intros []. Qed.

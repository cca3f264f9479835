(** The smaller stored structures: collections, fonts, custom info tags, legacy materials, render probes. *)
From Verif Require Import Base Text Biff Quantize Common Enums ItemBase StructMaterial StructRenderProbe.
From Coq Require Import SpecFloat.

(** ** Record loops whose fallback reads the data of an unknown record
    (gamedata.rs:2315-2318, custominfotags.rs:24-27): [get_record_data(false)] instead of [skip_tag]. *)
Definition dispatch_data {S : Type} (arms : list (arm S)) (t : string) (s : S) : rd_M S :=
  match lookup t arms with
  | Some a => a s
  | None => get_record_data false ;;; rret s
  end.

(** What a stand-alone reader returns for some bytes: [BiffReader::new(input)] followed by the loop. *)
Definition run_reader {A} (m : rd_M A) (checked : bool) (input : bytes) : res A :=
  match m (rd_new checked input) with Ok (x, _) => Ok x | Fail f => Fail f end.

(** ** Collections *)
(** collection.rs:7-13 *)
Record Collection : Type := mkCollection {
  co_name : rstring; co_items : list rstring; co_fire_events : bool; co_stop_single_events : bool; co_group_elements : bool }.
Definition Collection_eta (s : Collection) : Collection :=
  mkCollection (co_name s) (co_items s) (co_fire_events s) (co_stop_single_events s) (co_group_elements s).
Definition set_co_name (x : rstring) (s : Collection) : Collection := ltac:(setter Collection_eta co_name s x).
Definition set_co_items (x : list rstring) (s : Collection) : Collection := ltac:(setter Collection_eta co_items s x).
Definition set_co_fire_events (x : bool) (s : Collection) : Collection := ltac:(setter Collection_eta co_fire_events s x).
Definition set_co_stop_single_events (x : bool) (s : Collection) : Collection := ltac:(setter Collection_eta co_stop_single_events s x).
Definition set_co_group_elements (x : bool) (s : Collection) : Collection := ltac:(setter Collection_eta co_group_elements s x).
(** collection.rs:15-57 [read]; the local variables are the fields of the value built at the end *)
Definition Collection_arms : list (arm Collection) :=
  [ ("NAME"%string, fun s => x <- get_wide_string ;; rret (set_co_name x s));
    ("ITEM"%string, fun s => x <- get_wide_string ;; rret (set_co_items (co_items s ++ [x]) s));
    ("EVNT"%string, fun s => x <- get_bool ;; rret (set_co_fire_events x s));
    ("SSNG"%string, fun s => x <- get_bool ;; rret (set_co_stop_single_events x s));
    ("GREL"%string, fun s => x <- get_bool ;; rret (set_co_group_elements x s)) ].
Definition Collection_init : Collection := mkCollection [] [] false false false.
Definition Collection_loop : rd_M Collection := read_arms Collection_arms Collection_init.
Definition Collection_read (checked : bool) (input : bytes) : res Collection := run_reader Collection_loop checked input.
(** collection.rs:59-71 [write] *)
Definition Collection_write_m (v : Collection) : wr_M :=
  write_tagged_wide_string "NAME" (co_name v) >>>
  wfor (co_items v) (fun x => write_tagged_wide_string "ITEM" x) >>>
  write_tagged_bool "EVNT" (co_fire_events v) >>>
  write_tagged_bool "SSNG" (co_stop_single_events v) >>>
  write_tagged_bool "GREL" (co_group_elements v) >>>
  close true.
Definition Collection_write (v : Collection) : res bytes := run_writer (Collection_write_m v).

(** ** Custom info tags *)
(** custominfotags.rs:6-30 *)
Definition CustomInfoTags_arms : list (arm (list rstring)) :=
  [ ("CUST"%string, fun s => x <- get_string ;; rret (s ++ [x])) ].
Definition CustomInfoTags_loop : rd_M (list rstring) := run_loop (dispatch_data CustomInfoTags_arms) [].
Definition CustomInfoTags_read (checked : bool) (input : bytes) : res (list rstring) :=
  run_reader CustomInfoTags_loop checked input.
(** custominfotags.rs:33-40 *)
Definition CustomInfoTags_write_m (v : list rstring) : wr_M :=
  wfor v (fun x => write_tagged_string "CUST" x) >>> close true.
Definition CustomInfoTags_write (v : list rstring) : res bytes := run_writer (CustomInfoTags_write_m v).

(** ** Embedded fonts *)
(** font.rs:8-13 *)
Record FontData : Type := mkFontData { fo_name : rstring; fo_path : rstring; fo_data : bytes }.
(** font.rs:57-62: the local variables of the loop, the value and [size_opt] *)
Record FontState : Type := mkFontState { fst_font : FontData; fst_size : option u32 }.
(** font.rs:57-97 *)
Definition FontData_arms : list (arm FontState) :=
  [ ("NAME", fun s => x <- get_string ;;
       rret (mkFontState (mkFontData x (fo_path (fst_font s)) (fo_data (fst_font s))) (fst_size s)));
    ("PATH", fun s => x <- get_string ;;
       rret (mkFontState (mkFontData (fo_name (fst_font s)) x (fo_data (fst_font s))) (fst_size s)));
    ("SIZE", fun s => x <- get_u32 ;; rret (mkFontState (fst_font s) (Some x)));
    ("DATA", fun s => match fst_size s with
                      | Some n => x <- get_data (w32_to_Z n) ;;
                                  rret (mkFontState (mkFontData (fo_name (fst_font s)) (fo_path (fst_font s)) x) (fst_size s))
                      | None => rpanic
                      end) ]%string.
Definition FontData_loop : rd_M FontState := read_arms FontData_arms (mkFontState (mkFontData [] [] []) None).
Definition FontData_read (checked : bool) (input : bytes) : res FontData :=
  s <~ run_reader FontData_loop checked input ;; Ok (fst_font s).
(** font.rs:99-107; [len().try_into().unwrap()] *)
Definition FontData_write_m (v : FontData) : wr_M :=
  write_tagged_string "NAME" (fo_name v) >>>
  write_tagged_string "PATH" (fo_path v) >>>
  wlift (try_u32 (zlen (fo_data v))) (fun n => write_tagged_u32 "SIZE" n) >>>
  write_tagged_data "DATA" (fo_data v) >>>
  close true.
Definition FontData_write (v : FontData) : res bytes := run_writer (FontData_write_m v).

(** ** The [bytes] crate: reading from the front of a [BytesMut].  All getters panic when too few bytes are left. *)
Definition cu_M (A : Type) := bytes -> res (A * bytes).
Definition cret {A} (a : A) : cu_M A := fun b => Ok (a, b).
Definition cbind {A B} (m : cu_M A) (k : A -> cu_M B) : cu_M B :=
  fun b => match m b with Ok (a, b') => k a b' | Fail f => Fail f end.
Notation "x <-- e ;; k" := (cbind e (fun x => k)) (at level 61, e at next level, right associativity).
(** [copy_to_bytes(n)], and [advance(n)] when the result is dropped *)
Definition cu_take (n : Z) : cu_M bytes :=
  fun b => if zlen b <? n then Panic else Ok (firstn (Z.to_nat n) b, skipn (Z.to_nat n) b).
Definition cu_lift {A} (x : res A) : cu_M A := fun b => match x with Ok a => Ok (a, b) | Fail f => Fail f end.
(** [get_u8], [get_u32_le], [get_f32_le] *)
Definition cu_u8 : cu_M byte := b <-- cu_take 1 ;; cu_lift (byte_of b).
Definition cu_32 : cu_M w32 := b <-- cu_take 4 ;; cu_lift (w32_of b).

(** ** Legacy materials *)
Definition MAX_NAME_BUFFER : Z := 32. (* material.rs:11 *)
(** material.rs:428-438 [write_padded_cstring_truncate] *)
Definition write_padded_cstring_truncate (s : rstring) (len : Z) : res bytes :=
  d <~ encode_latin1_lossy s ;;
  let d := firstn (Z.to_nat (len - 1)) d in
  Ok (d ++ [x00] ++ repeat x00 (Z.to_nat (len - zlen d - 1))).
(** material.rs:444-450 [read_padded_cstring], unwrapped by both callers: no NUL in the buffer is a panic *)
Definition read_padded_cstring (len : Z) : cu_M rstring :=
  b <-- cu_take len ;;
  if existsb is_nul b then cret (decode_latin1 (until_nul b)) else cu_lift Panic.
(** material.rs:452-457 [get_padding_3_validate] *)
Definition get_padding_3 : cu_M unit := _b <-- cu_take 3 ;; cret tt.

(** material.rs:96-153 *)
Record SaveMaterial : Type := mkSaveMaterial {
  sm_name : rstring; sm_base_color : Color; sm_glossy_color : Color; sm_clearcoat_color : Color;
  sm_wrap_lighting : f32; sm_is_metal : bool; sm_roughness : f32; sm_glossy_image_lerp : byte; sm_edge : f32;
  sm_thickness : byte; sm_opacity : f32; sm_opacity_active_edge_alpha : byte }.
(** [Color::from_win_color] on the stored little-endian word *)
Definition color_of_w32 (w : w32) : Color := Color_from_win_color (w32_to_Z w).
(** material.rs:266-306 *)
Definition SaveMaterial_read : cu_M SaveMaterial :=
  fun b => if zlen b =? 0 then Panic else
  (name <-- read_padded_cstring MAX_NAME_BUFFER ;;
   base_color <-- cu_32 ;;
   glossy_color <-- cu_32 ;;
   clearcoat_color <-- cu_32 ;;
   wrap_lighting <-- cu_32 ;;
   is_metal <-- cu_u8 ;;
   _p1 <-- get_padding_3 ;;
   roughness <-- cu_32 ;;
   glossy_image_lerp <-- cu_u8 ;;
   _p2 <-- get_padding_3 ;;
   edge <-- cu_32 ;;
   thickness <-- cu_u8 ;;
   _p3 <-- get_padding_3 ;;
   opacity <-- cu_32 ;;
   opacity_active_edge_alpha <-- cu_u8 ;;
   _p4 <-- get_padding_3 ;;
   cret (mkSaveMaterial name (color_of_w32 base_color) (color_of_w32 glossy_color) (color_of_w32 clearcoat_color)
           wrap_lighting (negb (is_nul is_metal)) roughness glossy_image_lerp edge thickness opacity
           opacity_active_edge_alpha)) b.
Definition win_color_bytes (c : Color) : bytes := w32_bytes (Z_to_w32 (Color_to_win_color c)).
Definition pad3 : bytes := [x00; x00; x00].
(** material.rs:308-334 *)
Definition SaveMaterial_write (v : SaveMaterial) : res bytes :=
  name <~ write_padded_cstring_truncate (sm_name v) MAX_NAME_BUFFER ;;
  Ok (name ++ win_color_bytes (sm_base_color v) ++ win_color_bytes (sm_glossy_color v) ++
      win_color_bytes (sm_clearcoat_color v) ++ w32_bytes (sm_wrap_lighting v) ++
      [if sm_is_metal v then x01 else x00] ++ pad3 ++ w32_bytes (sm_roughness v) ++
      [sm_glossy_image_lerp v] ++ pad3 ++ w32_bytes (sm_edge v) ++ [sm_thickness v] ++ pad3 ++
      w32_bytes (sm_opacity v) ++ [sm_opacity_active_edge_alpha v] ++ pad3).

(** material.rs:340-348 *)
Record SavePhysicsMaterial : Type := mkSavePhysicsMaterial {
  sp_name : rstring; sp_elasticity : f32; sp_elasticity_falloff : f32; sp_friction : f32; sp_scatter_angle : f32 }.
(** material.rs:391-412 *)
Definition SavePhysicsMaterial_read : cu_M SavePhysicsMaterial :=
  fun b => if zlen b =? 0 then Panic else
  (name <-- read_padded_cstring MAX_NAME_BUFFER ;;
   elasticity <-- cu_32 ;;
   elasticity_falloff <-- cu_32 ;;
   friction <-- cu_32 ;;
   scatter_angle <-- cu_32 ;;
   cret (mkSavePhysicsMaterial name elasticity elasticity_falloff friction scatter_angle)) b.
(** material.rs:414-421 *)
Definition SavePhysicsMaterial_write (v : SavePhysicsMaterial) : res bytes :=
  name <~ write_padded_cstring_truncate (sp_name v) MAX_NAME_BUFFER ;;
  Ok (name ++ w32_bytes (sp_elasticity v) ++ w32_bytes (sp_elasticity_falloff v) ++ w32_bytes (sp_friction v) ++
      w32_bytes (sp_scatter_angle v)).

(** [for _ in 0..n { l.push(read(&mut buff)) }] (gamedata.rs:2262-2265, 2272-2275) *)
Fixpoint cu_repeat {A} (n : nat) (m : cu_M A) : cu_M (list A) :=
  match n with
  | O => cret []
  | Datatypes.S n' => x <-- m ;; l <-- cu_repeat n' m ;; cret (x :: l)
  end.
(** [for mat in list { mat.write(&mut bytes) }] (gamedata.rs:2024-2026, 2030-2032) *)
Fixpoint concat_res {A} (f : A -> res bytes) (l : list A) : res bytes :=
  match l with
  | [] => Ok []
  | x :: l' => b <~ f x ;; c <~ concat_res f l' ;; Ok (b ++ c)
  end.

(** *** From the 10.8 form to the legacy form *)
(** [f32::clamp]: NaN stays NaN *)
Definition f32_clamp (x lo hi : f32) : f32 :=
  let y := if SFltb (f32_value x) (f32_value lo) then lo else x in
  if SFltb (f32_value hi) (f32_value y) then hi else y.
Definition f32_0_05 : f32 := Z_to_w32 1028443341. (* 0.05_f32 = 0x3D4CCCCD *)
Definition f32_1 : f32 := Z_to_w32 1065353216.    (* 1.0_f32 = 0x3F800000 *)
(** material.rs:155-213 [From<&Material> for SaveMaterial].  [255 - q] and [q << 1] for [q <= 127] stay within [u8];
    the operands of [|=] occupy different bits. *)
Definition SaveMaterial_of (m : Material) : res SaveMaterial :=
  g <~ quantize_u8 8 (f32_clamp (Material_glossy_image_lerp m) f32_0 f32_1) ;;
  t <~ quantize_u8 8 (f32_clamp (Material_thickness m) f32_0_05 f32_1) ;;
  a <~ quantize_u8 7 (f32_clamp (Material_edge_alpha m) f32_0 f32_1) ;;
  Ok (mkSaveMaterial (Material_name m) (Material_base_color m) (Material_glossy_color m) (Material_clearcoat_color m)
        (Material_wrap_lighting m) (match Material_type_ m with MaterialType_Metal => true | _ => false end)
        (Material_roughness m) (Z_to_byte (255 - byte_to_Z g)) (Material_edge m) t (Material_opacity m)
        (Z_to_byte ((if Material_opacity_active m then 1 else 0) + 2 * byte_to_Z a))).
(** material.rs:350-360 [From<&Material> for SavePhysicsMaterial] *)
Definition SavePhysicsMaterial_of (m : Material) : SavePhysicsMaterial :=
  mkSavePhysicsMaterial (Material_name m) (Material_elasticity m) (Material_elasticity_falloff m) (Material_friction m)
    (Material_scatter_angle m).

(** ** Render probes with trailing bytes *)
(** renderprobe.rs:244-247 *)
Record RenderProbeWithGarbage : Type := mkRenderProbeG { rp_probe : RenderProbe; rp_trailing : bytes }.
(** renderprobe.rs:370-381 *)
Definition RenderProbeG_read : rd_M RenderProbeWithGarbage :=
  disable_warn_remaining ;;; p <- RenderProbe_read ;; d <- get_remaining ;; rret (mkRenderProbeG p d).
(** renderprobe.rs:383-388 *)
Definition RenderProbeG_write (v : RenderProbeWithGarbage) : wr_M :=
  RenderProbe_write (rp_probe v) >>> write_data (rp_trailing v).

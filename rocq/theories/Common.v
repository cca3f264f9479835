(** Values shared by the game items: vertices, colors, fonts, timer data, shared editor attributes, drag points. *)
From Verif Require Import Base Text Biff Quantize.

(** ** [match tag { .. }]

    The arms of a [match tag_str] are a list of (tag, body) pairs; the first arm with an equal tag is taken.
    The fallback of the item readers first offers the tag to [TimerData::biff_read_tag], then to
    [read_shared_attribute] (both again a [match] on the tag), and finally calls [skip_tag]
    (for instance gameitem/timer.rs:125-137): this is the lookup in the concatenated arms. *)
Fixpoint lookup {A : Type} (t : string) (arms : list (string * A)) : option A :=
  match arms with
  | [] => None
  | (k, a) :: arms' => if (t =? k)%string then Some a else lookup t arms'
  end.

Definition arm (S : Type) : Type := (string * (S -> rd_M S))%type.
Definition dispatch {S : Type} (arms : list (arm S)) (t : string) (s : S) : rd_M S :=
  match lookup t arms with
  | Some a => a s
  | None => skip_tag ;;; rret s
  end.
(** A whole record reader: default value, record loop. *)
Definition read_arms {S : Type} (arms : list (arm S)) (dflt : S) : rd_M S := run_loop (dispatch arms) dflt.

(** Arms of a component [T] of [S]. *)
Definition lift_arms {S T : Type} (get : S -> T) (set : T -> S -> S) (arms : list (arm T)) : list (arm S) :=
  map (fun '(k, a) => (k, fun s => x <- a (get s) ;; rret (set x s))) arms.

(** ** gameitem/vertex2d.rs:4-43 *)
Record Vertex2D : Type := mkVertex2D { v2_x : f32; v2_y : f32 }.
Definition f32_0 : f32 := Z_to_w32 0.
(** vertex2d.rs:23-27 *)
Definition Vertex2D_default : Vertex2D := mkVertex2D f32_0 f32_0.
(** vertex2d.rs:29-35 *)
Definition Vertex2D_read : rd_M Vertex2D := x <- get_f32 ;; y <- get_f32 ;; rret (mkVertex2D x y).
(** vertex2d.rs:37-42 *)
Definition Vertex2D_write (v : Vertex2D) : wr_M := write_f32 (v2_x v) >>> write_f32 (v2_y v).

(** ** gameitem/vertex3d.rs:4-74 *)
Record Vertex3D : Type := mkVertex3D { v3_x : f32; v3_y : f32; v3_z : f32 }.
(** vertex3d.rs:52-60 *)
Definition Vertex3D_default : Vertex3D := mkVertex3D f32_0 f32_0 f32_0.
(** vertex3d.rs:17-21 *)
Definition Vertex3D_write_unpadded (v : Vertex3D) : wr_M :=
  write_f32 (v3_x v) >>> write_f32 (v3_y v) >>> write_f32 (v3_z v).
(** vertex3d.rs:23-28 *)
Definition Vertex3D_read_unpadded : rd_M Vertex3D :=
  x <- get_f32 ;; y <- get_f32 ;; z <- get_f32 ;; rret (mkVertex3D x y z).
(** vertex3d.rs:30-35, 70-74 *)
Definition Vertex3D_write (v : Vertex3D) : wr_M :=
  write_f32 (v3_x v) >>> write_f32 (v3_y v) >>> write_f32 (v3_z v) >>> write_f32 f32_0.
(** vertex3d.rs:37-43, 63-67 *)
Definition Vertex3D_read : rd_M Vertex3D :=
  x <- get_f32 ;; y <- get_f32 ;; z <- get_f32 ;; _pad <- get_f32 ;; rret (mkVertex3D x y z).

(** ** gameitem/vertex4d.rs:6-11 *)
Record Vertex4D : Type := mkVertex4D { v4_x : f32; v4_y : f32; v4_z : f32; v4_w : f32 }.
(** vertex4d.rs:25-34 *)
Definition Vertex4D_default : Vertex4D := mkVertex4D f32_0 f32_0 f32_0 f32_0.
(** vertex4d.rs:36-44 *)
Definition Vertex4D_read : rd_M Vertex4D :=
  x <- get_f32 ;; y <- get_f32 ;; z <- get_f32 ;; w <- get_f32 ;; rret (mkVertex4D x y z w).
(** vertex4d.rs:46-53 *)
Definition Vertex4D_write (v : Vertex4D) : wr_M :=
  write_f32 (v4_x v) >>> write_f32 (v4_y v) >>> write_f32 (v4_z v) >>> write_f32 (v4_w v).

(** ** color.rs:13-24 *)
Record Color : Type := mkColor { c_r : byte; c_g : byte; c_b : byte; c_unused : byte }.
(** color.rs:103-108 [from_rgb] *)
Definition Color_from_rgb (arg : Z) : Color :=
  mkColor (Z_to_byte (arg / 65536)) (Z_to_byte (arg / 256)) (Z_to_byte arg) x00.
(** color.rs:110-115 [to_rgb] *)
Definition Color_to_rgb (c : Color) : Z := byte_to_Z (c_r c) * 65536 + byte_to_Z (c_g c) * 256 + byte_to_Z (c_b c).
(** color.rs:120-126 [to_win_color] (the four operands of [|] occupy disjoint bytes, so the result is their sum) *)
Definition Color_to_win_color (c : Color) : Z :=
  byte_to_Z (c_unused c) * 16777216 + byte_to_Z (c_r c) + byte_to_Z (c_g c) * 256 + byte_to_Z (c_b c) * 65536.
(** color.rs:128-134 [from_win_color] *)
Definition Color_from_win_color (arg : Z) : Color :=
  mkColor (Z_to_byte arg) (Z_to_byte (arg / 256)) (Z_to_byte (arg / 65536)) (Z_to_byte (arg / 16777216)).
(** color.rs:136-138 [rgb] *)
Definition Color_rgb (r g b : Z) : Color := mkColor (Z_to_byte r) (Z_to_byte g) (Z_to_byte b) x00.
(** color.rs:140-150 *)
Definition Color_read : rd_M Color :=
  r <- get_u8 ;; g <- get_u8 ;; b <- get_u8 ;; u <- get_u8 ;; rret (mkColor r g b u).
(** color.rs:152-158 *)
Definition Color_write (c : Color) : wr_M :=
  write_u8 (c_r c) >>> write_u8 (c_g c) >>> write_u8 (c_b c) >>> write_u8 (c_unused c).

(** ** gameitem/font.rs *)
(** font.rs:38-80: a [HashSet<FontStyle>] is a set of the five styles, represented by its characteristic function. *)
Record FontStyles : Type := mkFontStyles {
  fs_normal : bool; fs_bold : bool; fs_italic : bool; fs_underline : bool; fs_strikethrough : bool }.
(** font.rs:56-75 [flags_to_styles] *)
Definition flags_to_styles (b : byte) : FontStyles :=
  let z := byte_to_Z b in
  mkFontStyles (Z.testbit z 0) (Z.testbit z 1) (Z.testbit z 2) (Z.testbit z 3) (Z.testbit z 4).
(** font.rs:46-55, 77-83 [styles_to_flags]: [|=] of distinct bits *)
Definition styles_to_flags (s : FontStyles) : byte :=
  Z_to_byte ((if fs_normal s then 1 else 0) + (if fs_bold s then 2 else 0) + (if fs_italic s then 4 else 0)
             + (if fs_underline s then 8 else 0) + (if fs_strikethrough s then 16 else 0)).
(** font.rs:114-131 *)
Record FontDesc : Type := mkFontDesc {
  fd_charset : u16; fd_style : FontStyles; fd_weight : u16; fd_size : u32; fd_name : rstring }.
(** font.rs:188-199 *)
Definition FontDesc_default : FontDesc :=
  mkFontDesc (Z_to_w16 0) (mkFontStyles false false false false false) (Z_to_w16 0) (Z_to_w32 400) (lit "Arial").
(** font.rs:201-219; the [assert_eq] on the version is a panic *)
Definition FontDesc_read : rd_M FontDesc :=
  ver <- get_u8_no_remaining_update ;;
  (if Byte.eqb ver x01 then rret tt else rpanic) ;;;
  charset <- get_u16_no_remaining_update ;;
  style <- get_u8_no_remaining_update ;;
  weight <- get_u16_no_remaining_update ;;
  size <- get_u32_no_remaining_update ;;
  name_len <- get_u8_no_remaining_update ;;
  name <- get_str_no_remaining_update (byte_to_Z name_len) ;;
  rret (mkFontDesc charset (flags_to_styles style) weight size name).
(** font.rs:221-231 *)
Definition FontDesc_write (f : FontDesc) : wr_M :=
  write_u8 x01 >>> write_u16 (fd_charset f) >>> write_u8 (styles_to_flags (fd_style f)) >>>
  write_u16 (fd_weight f) >>> write_u32 (fd_size f) >>> write_short_string (fd_name f).

(** ** gameitem/select.rs:44-65 *)
Record TimerData : Type := mkTimerData { td_is_enabled : bool; td_interval : i32 }.
(** select.rs:42 [derive(Default)] *)
Definition TimerData_default : TimerData := mkTimerData false (Z_to_w32 0).
Definition set_td_is_enabled x (t : TimerData) : TimerData := mkTimerData x (td_interval t).
Definition set_td_interval x (t : TimerData) : TimerData := mkTimerData (td_is_enabled t) x.
(** select.rs:81-93 [biff_read_tag] *)
Definition TimerData_arms : list (arm TimerData) :=
  [ ("TMON", fun s => x <- get_bool ;; rret (set_td_is_enabled x s));
    ("TMIN", fun s => x <- get_i32 ;; rret (set_td_interval x s)) ]%string.
(** select.rs:102-104, 107-109, 96-99 *)
Definition TimerData_write_tmon (t : TimerData) : wr_M := write_tagged_bool "TMON" (td_is_enabled t).
Definition TimerData_write_tmin (t : TimerData) : wr_M := write_tagged_i32 "TMIN" (td_interval t).
Definition TimerData_write (t : TimerData) : wr_M := TimerData_write_tmon t >>> TimerData_write_tmin t.

(** ** gameitem/select.rs:14-29 [HasSharedAttributes], implemented per item by the macro at 169-207 *)
Record HasShared (X : Type) : Type := mkHasShared {
  sh_is_locked : X -> bool;
  sh_editor_layer : X -> option u32;
  sh_editor_layer_name : X -> option rstring;
  sh_editor_layer_visibility : X -> option bool;
  sh_part_group_name : X -> option rstring;
  sh_set_is_locked : bool -> X -> X;
  sh_set_editor_layer : option u32 -> X -> X;
  sh_set_editor_layer_name : option rstring -> X -> X;
  sh_set_editor_layer_visibility : option bool -> X -> X;
  sh_set_part_group_name : option rstring -> X -> X }.
Arguments mkHasShared {X}.
Arguments sh_is_locked {X}. Arguments sh_editor_layer {X}. Arguments sh_editor_layer_name {X}.
Arguments sh_editor_layer_visibility {X}. Arguments sh_part_group_name {X}.
Arguments sh_set_is_locked {X}. Arguments sh_set_editor_layer {X}. Arguments sh_set_editor_layer_name {X}.
Arguments sh_set_editor_layer_visibility {X}. Arguments sh_set_part_group_name {X}.

(** select.rs:132-156 [read_shared_attribute] *)
Definition shared_arms {X} (d : HasShared X) : list (arm X) :=
  [ ("LOCK", fun s => x <- get_bool ;; rret (sh_set_is_locked d x s));
    ("LAYR", fun s => x <- get_u32 ;; rret (sh_set_editor_layer d (Some x) s));
    ("LANR", fun s => x <- get_string ;; rret (sh_set_editor_layer_name d (Some x) s));
    ("LVIS", fun s => x <- get_bool ;; rret (sh_set_editor_layer_visibility d (Some x) s));
    ("GRUP", fun s => x <- get_string ;; rret (sh_set_part_group_name d (Some x) s)) ]%string.
(** select.rs:116-130 [write_shared_attributes] *)
Definition write_shared_attributes {X} (d : HasShared X) (v : X) : wr_M :=
  write_tagged_bool "LOCK" (sh_is_locked d v) >>>
  wopt (sh_editor_layer d v) (fun x => write_tagged_u32 "LAYR" x) >>>
  wopt (sh_editor_layer_name d v) (fun x => write_tagged_string "LANR" x) >>>
  wopt (sh_part_group_name d v) (fun x => write_tagged_string "GRUP" x) >>>
  wopt (sh_editor_layer_visibility d v) (fun x => write_tagged_bool "LVIS" x).

(** ** gameitem/dragpoint.rs *)
(** dragpoint.rs:8-35 *)
Record DragPoint : Type := mkDragPoint {
  dp_x : f32; dp_y : f32; dp_z : f32;
  dp_smooth : bool; dp_is_slingshot : option bool; dp_has_auto_texture : bool; dp_tex_coord : f32;
  dp_is_locked : bool; dp_editor_layer : option u32; dp_editor_layer_name : option rstring;
  dp_editor_layer_visibility : option bool }.
(** dragpoint.rs: [impl Default for DragPoint] *)
Definition DragPoint_default : DragPoint :=
  mkDragPoint f32_0 f32_0 f32_0 false None false f32_0 false None None None.
Definition set_dp_xy x y (s : DragPoint) : DragPoint :=
  mkDragPoint x y (dp_z s) (dp_smooth s) (dp_is_slingshot s) (dp_has_auto_texture s) (dp_tex_coord s)
    (dp_is_locked s) (dp_editor_layer s) (dp_editor_layer_name s) (dp_editor_layer_visibility s).
Definition set_dp_z z (s : DragPoint) : DragPoint :=
  mkDragPoint (dp_x s) (dp_y s) z (dp_smooth s) (dp_is_slingshot s) (dp_has_auto_texture s) (dp_tex_coord s)
    (dp_is_locked s) (dp_editor_layer s) (dp_editor_layer_name s) (dp_editor_layer_visibility s).
Definition set_dp_smooth v (s : DragPoint) : DragPoint :=
  mkDragPoint (dp_x s) (dp_y s) (dp_z s) v (dp_is_slingshot s) (dp_has_auto_texture s) (dp_tex_coord s)
    (dp_is_locked s) (dp_editor_layer s) (dp_editor_layer_name s) (dp_editor_layer_visibility s).
Definition set_dp_is_slingshot v (s : DragPoint) : DragPoint :=
  mkDragPoint (dp_x s) (dp_y s) (dp_z s) (dp_smooth s) v (dp_has_auto_texture s) (dp_tex_coord s)
    (dp_is_locked s) (dp_editor_layer s) (dp_editor_layer_name s) (dp_editor_layer_visibility s).
Definition set_dp_has_auto_texture v (s : DragPoint) : DragPoint :=
  mkDragPoint (dp_x s) (dp_y s) (dp_z s) (dp_smooth s) (dp_is_slingshot s) v (dp_tex_coord s)
    (dp_is_locked s) (dp_editor_layer s) (dp_editor_layer_name s) (dp_editor_layer_visibility s).
Definition set_dp_tex_coord v (s : DragPoint) : DragPoint :=
  mkDragPoint (dp_x s) (dp_y s) (dp_z s) (dp_smooth s) (dp_is_slingshot s) (dp_has_auto_texture s) v
    (dp_is_locked s) (dp_editor_layer s) (dp_editor_layer_name s) (dp_editor_layer_visibility s).
Definition set_dp_is_locked v (s : DragPoint) : DragPoint :=
  mkDragPoint (dp_x s) (dp_y s) (dp_z s) (dp_smooth s) (dp_is_slingshot s) (dp_has_auto_texture s) (dp_tex_coord s)
    v (dp_editor_layer s) (dp_editor_layer_name s) (dp_editor_layer_visibility s).
Definition set_dp_editor_layer v (s : DragPoint) : DragPoint :=
  mkDragPoint (dp_x s) (dp_y s) (dp_z s) (dp_smooth s) (dp_is_slingshot s) (dp_has_auto_texture s) (dp_tex_coord s)
    (dp_is_locked s) v (dp_editor_layer_name s) (dp_editor_layer_visibility s).
Definition set_dp_editor_layer_name v (s : DragPoint) : DragPoint :=
  mkDragPoint (dp_x s) (dp_y s) (dp_z s) (dp_smooth s) (dp_is_slingshot s) (dp_has_auto_texture s) (dp_tex_coord s)
    (dp_is_locked s) (dp_editor_layer s) v (dp_editor_layer_visibility s).
Definition set_dp_editor_layer_visibility v (s : DragPoint) : DragPoint :=
  mkDragPoint (dp_x s) (dp_y s) (dp_z s) (dp_smooth s) (dp_is_slingshot s) (dp_has_auto_texture s) (dp_tex_coord s)
    (dp_is_locked s) (dp_editor_layer s) (dp_editor_layer_name s) v.

(** dragpoint.rs:155-196: the arms of the record loop *)
Definition DragPoint_arms : list (arm DragPoint) :=
  [ ("VCEN", fun s => x <- get_f32 ;; y <- get_f32 ;; rret (set_dp_xy x y s));
    ("POSZ", fun s => x <- get_f32 ;; rret (set_dp_z x s));
    ("SMTH", fun s => x <- get_bool ;; rret (set_dp_smooth x s));
    ("SLNG", fun s => x <- get_bool ;; rret (set_dp_is_slingshot (Some x) s));
    ("ATEX", fun s => x <- get_bool ;; rret (set_dp_has_auto_texture x s));
    ("TEXC", fun s => x <- get_f32 ;; rret (set_dp_tex_coord x s));
    ("LOCK", fun s => x <- get_bool ;; rret (set_dp_is_locked x s));
    ("LAYR", fun s => x <- get_u32 ;; rret (set_dp_editor_layer (Some x) s));
    ("LANR", fun s => x <- get_string ;; rret (set_dp_editor_layer_name (Some x) s));
    ("LVIS", fun s => x <- get_bool ;; rret (set_dp_editor_layer_visibility (Some x) s)) ]%string.

(** A record stream embedded in the data of the current reader, read through [child_reader]
    (dragpoint.rs:144, 198-200; the same shape occurs in image.rs and gamedata.rs). *)
Definition with_child {A} (m : rd_M A) : rd_M A :=
  sub <- child_reader ;;
  fun r => match m sub with
           | Fail f => Fail f
           | Ok (x, sub') => (skip_end_tag (r_pos sub') ;;; rret x) r
           end.
(** dragpoint.rs:143-201 *)
Definition DragPoint_read : rd_M DragPoint := with_child (read_arms DragPoint_arms DragPoint_default).
(** dragpoint.rs:204-232 *)
Definition DragPoint_write (v : DragPoint) : wr_M :=
  (new_tag "VCEN" >>> write_f32 (dp_x v) >>> write_f32 (dp_y v) >>> end_tag) >>>
  write_tagged_f32 "POSZ" (dp_z v) >>>
  write_tagged_bool "SMTH" (dp_smooth v) >>>
  wopt (dp_is_slingshot v) (fun x => write_tagged_bool "SLNG" x) >>>
  write_tagged_bool "ATEX" (dp_has_auto_texture v) >>>
  write_tagged_f32 "TEXC" (dp_tex_coord v) >>>
  write_tagged_bool "LOCK" (dp_is_locked v) >>>
  wopt (dp_editor_layer v) (fun x => write_tagged_u32 "LAYR" x) >>>
  wopt (dp_editor_layer_name v) (fun x => write_tagged_string "LANR" x) >>>
  wopt (dp_editor_layer_visibility v) (fun x => write_tagged_bool "LVIS" x) >>>
  close true.

(** [writer.write_tagged_u32(tag, quantize_unsigned::<8>(x))] (wall.rs:501, hittarget.rs:558, primitive.rs:1035) *)
Definition write_tagged_quantized8 (t : string) (x : f32) : wr_M :=
  wlift (quantize_unsigned_8 x) (fun q => write_tagged_u32 t q).
(** [Some(dequantize_unsigned::<8>(reader.get_u32()))] (wall.rs:401, hittarget.rs:498, primitive.rs:870) *)
Definition get_dequantized8 : rd_M f32 := x <- get_u32 ;; rret (dequantize_unsigned_8 x).

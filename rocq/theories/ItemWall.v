(** Generated by tools/gen_items.py from src/vpx/gameitem/wall.rs. *)
From Verif Require Import Base Text Biff Quantize Common Enums ItemBase.

(** gameitem/wall.rs:14-94 *)
Record Wall : Type := mkWall {
  Wall_name : rstring;
  Wall_hit_event : bool;
  Wall_is_droppable : bool;
  Wall_is_flipbook : bool;
  Wall_is_bottom_solid : bool;
  Wall_is_collidable : bool;
  Wall_threshold : f32;
  Wall_image : rstring;
  Wall_side_image : rstring;
  Wall_side_material : rstring;
  Wall_top_material : rstring;
  Wall_slingshot_material : rstring;
  Wall_height_bottom : f32;
  Wall_height_top : f32;
  Wall_display_texture : bool;
  Wall_slingshot_force : f32;
  Wall_slingshot_threshold : f32;
  Wall_elasticity : f32;
  Wall_elasticity_falloff : option f32;
  Wall_friction : f32;
  Wall_scatter : f32;
  Wall_is_top_bottom_visible : bool;
  Wall_slingshot_animation : bool;
  Wall_is_side_visible : bool;
  Wall_disable_lighting_top_old : option f32;
  Wall_disable_lighting_top : option f32;
  Wall_disable_lighting_below : option f32;
  Wall_is_reflection_enabled : option bool;
  Wall_physics_material : option rstring;
  Wall_overwrite_physics : option bool;
  Wall_timer : TimerData;
  Wall_is_locked : bool;
  Wall_editor_layer : option u32;
  Wall_editor_layer_name : option rstring;
  Wall_editor_layer_visibility : option bool;
  Wall_part_group_name : option rstring;
  Wall_drag_points : list DragPoint }.
Definition Wall_eta (s : Wall) : Wall := mkWall (Wall_name s) (Wall_hit_event s) (Wall_is_droppable s) (Wall_is_flipbook s) (Wall_is_bottom_solid s) (Wall_is_collidable s) (Wall_threshold s) (Wall_image s) (Wall_side_image s) (Wall_side_material s) (Wall_top_material s) (Wall_slingshot_material s) (Wall_height_bottom s) (Wall_height_top s) (Wall_display_texture s) (Wall_slingshot_force s) (Wall_slingshot_threshold s) (Wall_elasticity s) (Wall_elasticity_falloff s) (Wall_friction s) (Wall_scatter s) (Wall_is_top_bottom_visible s) (Wall_slingshot_animation s) (Wall_is_side_visible s) (Wall_disable_lighting_top_old s) (Wall_disable_lighting_top s) (Wall_disable_lighting_below s) (Wall_is_reflection_enabled s) (Wall_physics_material s) (Wall_overwrite_physics s) (Wall_timer s) (Wall_is_locked s) (Wall_editor_layer s) (Wall_editor_layer_name s) (Wall_editor_layer_visibility s) (Wall_part_group_name s) (Wall_drag_points s).
(** Assignments to one field. *)
Definition set_Wall_name (x : rstring) (s : Wall) : Wall := ltac:(setter Wall_eta Wall_name s x).
Definition set_Wall_hit_event (x : bool) (s : Wall) : Wall := ltac:(setter Wall_eta Wall_hit_event s x).
Definition set_Wall_is_droppable (x : bool) (s : Wall) : Wall := ltac:(setter Wall_eta Wall_is_droppable s x).
Definition set_Wall_is_flipbook (x : bool) (s : Wall) : Wall := ltac:(setter Wall_eta Wall_is_flipbook s x).
Definition set_Wall_is_bottom_solid (x : bool) (s : Wall) : Wall := ltac:(setter Wall_eta Wall_is_bottom_solid s x).
Definition set_Wall_is_collidable (x : bool) (s : Wall) : Wall := ltac:(setter Wall_eta Wall_is_collidable s x).
Definition set_Wall_threshold (x : f32) (s : Wall) : Wall := ltac:(setter Wall_eta Wall_threshold s x).
Definition set_Wall_image (x : rstring) (s : Wall) : Wall := ltac:(setter Wall_eta Wall_image s x).
Definition set_Wall_side_image (x : rstring) (s : Wall) : Wall := ltac:(setter Wall_eta Wall_side_image s x).
Definition set_Wall_side_material (x : rstring) (s : Wall) : Wall := ltac:(setter Wall_eta Wall_side_material s x).
Definition set_Wall_top_material (x : rstring) (s : Wall) : Wall := ltac:(setter Wall_eta Wall_top_material s x).
Definition set_Wall_slingshot_material (x : rstring) (s : Wall) : Wall := ltac:(setter Wall_eta Wall_slingshot_material s x).
Definition set_Wall_height_bottom (x : f32) (s : Wall) : Wall := ltac:(setter Wall_eta Wall_height_bottom s x).
Definition set_Wall_height_top (x : f32) (s : Wall) : Wall := ltac:(setter Wall_eta Wall_height_top s x).
Definition set_Wall_display_texture (x : bool) (s : Wall) : Wall := ltac:(setter Wall_eta Wall_display_texture s x).
Definition set_Wall_slingshot_force (x : f32) (s : Wall) : Wall := ltac:(setter Wall_eta Wall_slingshot_force s x).
Definition set_Wall_slingshot_threshold (x : f32) (s : Wall) : Wall := ltac:(setter Wall_eta Wall_slingshot_threshold s x).
Definition set_Wall_elasticity (x : f32) (s : Wall) : Wall := ltac:(setter Wall_eta Wall_elasticity s x).
Definition set_Wall_elasticity_falloff (x : option f32) (s : Wall) : Wall := ltac:(setter Wall_eta Wall_elasticity_falloff s x).
Definition set_Wall_friction (x : f32) (s : Wall) : Wall := ltac:(setter Wall_eta Wall_friction s x).
Definition set_Wall_scatter (x : f32) (s : Wall) : Wall := ltac:(setter Wall_eta Wall_scatter s x).
Definition set_Wall_is_top_bottom_visible (x : bool) (s : Wall) : Wall := ltac:(setter Wall_eta Wall_is_top_bottom_visible s x).
Definition set_Wall_slingshot_animation (x : bool) (s : Wall) : Wall := ltac:(setter Wall_eta Wall_slingshot_animation s x).
Definition set_Wall_is_side_visible (x : bool) (s : Wall) : Wall := ltac:(setter Wall_eta Wall_is_side_visible s x).
Definition set_Wall_disable_lighting_top_old (x : option f32) (s : Wall) : Wall := ltac:(setter Wall_eta Wall_disable_lighting_top_old s x).
Definition set_Wall_disable_lighting_top (x : option f32) (s : Wall) : Wall := ltac:(setter Wall_eta Wall_disable_lighting_top s x).
Definition set_Wall_disable_lighting_below (x : option f32) (s : Wall) : Wall := ltac:(setter Wall_eta Wall_disable_lighting_below s x).
Definition set_Wall_is_reflection_enabled (x : option bool) (s : Wall) : Wall := ltac:(setter Wall_eta Wall_is_reflection_enabled s x).
Definition set_Wall_physics_material (x : option rstring) (s : Wall) : Wall := ltac:(setter Wall_eta Wall_physics_material s x).
Definition set_Wall_overwrite_physics (x : option bool) (s : Wall) : Wall := ltac:(setter Wall_eta Wall_overwrite_physics s x).
Definition set_Wall_timer (x : TimerData) (s : Wall) : Wall := ltac:(setter Wall_eta Wall_timer s x).
Definition set_Wall_is_locked (x : bool) (s : Wall) : Wall := ltac:(setter Wall_eta Wall_is_locked s x).
Definition set_Wall_editor_layer (x : option u32) (s : Wall) : Wall := ltac:(setter Wall_eta Wall_editor_layer s x).
Definition set_Wall_editor_layer_name (x : option rstring) (s : Wall) : Wall := ltac:(setter Wall_eta Wall_editor_layer_name s x).
Definition set_Wall_editor_layer_visibility (x : option bool) (s : Wall) : Wall := ltac:(setter Wall_eta Wall_editor_layer_visibility s x).
Definition set_Wall_part_group_name (x : option rstring) (s : Wall) : Wall := ltac:(setter Wall_eta Wall_part_group_name s x).
Definition set_Wall_drag_points (x : list DragPoint) (s : Wall) : Wall := ltac:(setter Wall_eta Wall_drag_points s x).
(** gameitem/wall.rs:241-283 *)
Definition Wall_default : Wall := mkWall
  []
  false
  false
  false
  false
  true
  (Z_to_w32 1073741824) (* 2.0 *)
  []
  []
  []
  []
  []
  f32_0
  (Z_to_w32 1112014848) (* 50.0 *)
  false
  (Z_to_w32 1117782016) (* 80.0 *)
  f32_0
  (Z_to_w32 1050253722) (* 0.3 *)
  None
  (Z_to_w32 1050253722) (* 0.3 *)
  f32_0
  true
  true
  true
  None
  None
  None
  None
  None
  None
  TimerData_default
  false
  None
  None
  None
  None
  [].
(** gameitem/wall.rs:95, the macro at gameitem/select.rs:168-207 *)
Definition Wall_shared : HasShared Wall := mkHasShared
  Wall_is_locked Wall_editor_layer Wall_editor_layer_name Wall_editor_layer_visibility Wall_part_group_name
  set_Wall_is_locked set_Wall_editor_layer set_Wall_editor_layer_name set_Wall_editor_layer_visibility set_Wall_part_group_name.
(** gameitem/wall.rs:285-469, the arms of the record loop and its fallback *)
Definition Wall_own_arms : list (arm Wall) :=
  [
    ("HTEV", fun s => x <- get_bool ;; rret (set_Wall_hit_event x s)); (* 297 *)
    ("DROP", fun s => x <- get_bool ;; rret (set_Wall_is_droppable x s)); (* 300 *)
    ("FLIP", fun s => x <- get_bool ;; rret (set_Wall_is_flipbook x s)); (* 303 *)
    ("BOTS", fun s => x <- get_bool ;; rret (set_Wall_is_bottom_solid x s)); (* 306 *)
    ("COLL", fun s => x <- get_bool ;; rret (set_Wall_is_collidable x s)); (* 309 *)
    ("THRS", fun s => x <- get_f32 ;; rret (set_Wall_threshold x s)); (* 312 *)
    ("IMGF", fun s => x <- get_string ;; rret (set_Wall_image x s)); (* 315 *)
    ("IMGS", fun s => x <- get_string ;; rret (set_Wall_side_image x s)); (* 318 *)
    ("MATR", fun s => x <- get_string ;; rret (set_Wall_side_material x s)); (* 321 *)
    ("MATP", fun s => x <- get_string ;; rret (set_Wall_top_material x s)); (* 324 *)
    ("MATL", fun s => x <- get_string ;; rret (set_Wall_slingshot_material x s)); (* 327 *)
    ("HTBT", fun s => x <- get_f32 ;; rret (set_Wall_height_bottom x s)); (* 330 *)
    ("NAME", fun s => x <- get_wide_string ;; rret (set_Wall_name x s)); (* 333 *)
    ("DTEX", fun s => x <- get_bool ;; rret (set_Wall_display_texture x s)); (* 336 *)
    ("SLFO", fun s => x <- get_f32 ;; rret (set_Wall_slingshot_force x s)); (* 339 *)
    ("SLTH", fun s => x <- get_f32 ;; rret (set_Wall_slingshot_threshold x s)); (* 342 *)
    ("SLAN", fun s => x <- get_bool ;; rret (set_Wall_slingshot_animation x s)); (* 345 *)
    ("ELAS", fun s => x <- get_f32 ;; rret (set_Wall_elasticity x s)); (* 348 *)
    ("ELFO", fun s => x <- get_f32 ;; rret (set_Wall_elasticity_falloff (Some x) s)); (* 351 *)
    ("FRIC", fun s => x <- get_f32 ;; rret (set_Wall_friction x s)); (* 354 *)
    ("SCAT", fun s => x <- get_f32 ;; rret (set_Wall_scatter x s)); (* 357 *)
    ("TBVI", fun s => x <- get_bool ;; rret (set_Wall_is_top_bottom_visible x s)); (* 360 *)
    ("OVPH", fun s => x <- get_bool ;; rret (set_Wall_overwrite_physics (Some x) s)); (* 363 *)
    ("DLTO", fun s => x <- get_f32 ;; rret (set_Wall_disable_lighting_top (Some x) s)); (* 366 *)
    ("DLBE", fun s => x <- get_f32 ;; rret (set_Wall_disable_lighting_below (Some x) s)); (* 369 *)
    ("SIVI", fun s => x <- get_bool ;; rret (set_Wall_is_side_visible x s)); (* 372 *)
    ("REFL", fun s => x <- get_bool ;; rret (set_Wall_is_reflection_enabled (Some x) s)); (* 375 *)
    ("TMRN", fun s => x <- get_bool ;; rret (set_Wall_timer (set_td_is_enabled x (Wall_timer s)) s)); (* 378 *)
    ("PMAT", fun s => x <- get_string ;; rret (set_Wall_physics_material (Some x) s)); (* 381 *)
    ("ISBS", fun s => x <- get_bool ;; rret (set_Wall_is_bottom_solid x s)); (* 384 *)
    ("CLDW", fun s => x <- get_bool ;; rret (set_Wall_is_collidable x s)); (* 387 *)
    ("VSBL", fun s => x <- get_bool ;; rret (set_Wall_is_top_bottom_visible x s)); (* 390 *)
    ("SLGA", fun s => x <- get_bool ;; rret (set_Wall_slingshot_animation x s)); (* 393 *)
    ("SVBL", fun s => x <- get_bool ;; rret (set_Wall_is_side_visible x s)); (* 396 *)
    ("DILI", fun s => x <- get_dequantized8 ;; rret (set_Wall_disable_lighting_top_old (Some x) s)); (* 399 *)
    ("DILT", fun s => x <- get_f32 ;; rret (set_Wall_disable_lighting_top (Some x) s)); (* 403 *)
    ("DILB", fun s => x <- get_f32 ;; rret (set_Wall_disable_lighting_below (Some x) s)); (* 406 *)
    ("MAPH", fun s => x <- get_string ;; rret (set_Wall_physics_material (Some x) s)); (* 409 *)
    ("REEN", fun s => x <- get_bool ;; rret (set_Wall_is_reflection_enabled (Some x) s)); (* 412 *)
    ("IMAG", fun s => x <- get_string ;; rret (set_Wall_image x s)); (* 415 *)
    ("SIMG", fun s => x <- get_string ;; rret (set_Wall_side_image x s)); (* 418 *)
    ("SIMA", fun s => x <- get_string ;; rret (set_Wall_side_material x s)); (* 421 *)
    ("TOMA", fun s => x <- get_string ;; rret (set_Wall_top_material x s)); (* 424 *)
    ("SLMA", fun s => x <- get_string ;; rret (set_Wall_slingshot_material x s)); (* 427 *)
    ("HTTP", fun s => x <- get_f32 ;; rret (set_Wall_height_top x s)); (* 430 *)
    ("DSPT", fun s => x <- get_bool ;; rret (set_Wall_display_texture x s)); (* 433 *)
    ("SLGF", fun s => x <- get_f32 ;; rret (set_Wall_slingshot_force x s)); (* 436 *)
    ("WFCT", fun s => x <- get_f32 ;; rret (set_Wall_friction x s)); (* 439 *)
    ("WSCT", fun s => x <- get_f32 ;; rret (set_Wall_scatter x s)); (* 442 *)
    ("PNTS", fun s => rret s); (* 445 *)
    ("DPNT", fun s => x <- DragPoint_read ;; rret (set_Wall_drag_points (Wall_drag_points s ++ [x]) s)) (* 448 *) ]%string.
Definition Wall_arms : list (arm Wall) := Wall_own_arms ++ lift_arms Wall_timer set_Wall_timer TimerData_arms ++ shared_arms Wall_shared.
Definition Wall_init : Wall := Wall_default.
Definition Wall_read : rd_M Wall := read_arms Wall_arms Wall_init.
(** gameitem/wall.rs:471-529 *)
Definition Wall_write (v : Wall) : wr_M :=
  write_tagged_bool "HTEV" (Wall_hit_event v) >>>
  write_tagged_bool "DROP" (Wall_is_droppable v) >>>
  write_tagged_bool "FLIP" (Wall_is_flipbook v) >>>
  write_tagged_bool "ISBS" (Wall_is_bottom_solid v) >>>
  write_tagged_bool "CLDW" (Wall_is_collidable v) >>>
  TimerData_write (Wall_timer v) >>>
  write_tagged_f32 "THRS" (Wall_threshold v) >>>
  write_tagged_string "IMAG" (Wall_image v) >>>
  write_tagged_string "SIMG" (Wall_side_image v) >>>
  write_tagged_string "SIMA" (Wall_side_material v) >>>
  write_tagged_string "TOMA" (Wall_top_material v) >>>
  write_tagged_string "SLMA" (Wall_slingshot_material v) >>>
  write_tagged_f32 "HTBT" (Wall_height_bottom v) >>>
  write_tagged_f32 "HTTP" (Wall_height_top v) >>>
  write_tagged_wide_string "NAME" (Wall_name v) >>>
  write_tagged_bool "DSPT" (Wall_display_texture v) >>>
  write_tagged_f32 "SLGF" (Wall_slingshot_force v) >>>
  write_tagged_f32 "SLTH" (Wall_slingshot_threshold v) >>>
  write_tagged_f32 "ELAS" (Wall_elasticity v) >>>
  wopt (Wall_elasticity_falloff v) (fun x => write_tagged_f32 "ELFO" x) >>>
  write_tagged_f32 "WFCT" (Wall_friction v) >>>
  write_tagged_f32 "WSCT" (Wall_scatter v) >>>
  write_tagged_bool "VSBL" (Wall_is_top_bottom_visible v) >>>
  write_tagged_bool "SLGA" (Wall_slingshot_animation v) >>>
  write_tagged_bool "SVBL" (Wall_is_side_visible v) >>>
  wopt (Wall_disable_lighting_top_old v) (fun x => write_tagged_quantized8 "DILI" x) >>>
  wopt (Wall_disable_lighting_top v) (fun x => write_tagged_f32 "DILT" x) >>>
  wopt (Wall_disable_lighting_below v) (fun x => write_tagged_f32 "DILB" x) >>>
  wopt (Wall_is_reflection_enabled v) (fun x => write_tagged_bool "REEN" x) >>>
  wopt (Wall_physics_material v) (fun x => write_tagged_string "MAPH" x) >>>
  wopt (Wall_overwrite_physics v) (fun x => write_tagged_bool "OVPH" x) >>>
  write_shared_attributes Wall_shared v >>>
  write_marker_tag "PNTS" >>>
  wfor (Wall_drag_points v) (fun x => write_tagged_with "DPNT" (DragPoint_write x)) >>>
  close true.

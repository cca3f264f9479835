(** Generated by tools/gen_items.py from src/vpx/gameitem/bumper.rs. *)
From Verif Require Import Base Text Biff Quantize Common Enums ItemBase.

(** gameitem/bumper.rs:11-63 *)
Record Bumper : Type := mkBumper {
  Bumper_name : rstring;
  Bumper_center : Vertex2D;
  Bumper_radius : f32;
  Bumper_threshold : f32;
  Bumper_force : f32;
  Bumper_scatter : option f32;
  Bumper_height_scale : f32;
  Bumper_ring_speed : f32;
  Bumper_orientation : f32;
  Bumper_ring_drop_offset : option f32;
  Bumper_cap_material : rstring;
  Bumper_base_material : rstring;
  Bumper_socket_material : rstring;
  Bumper_ring_material : option rstring;
  Bumper_surface : rstring;
  Bumper_is_cap_visible : bool;
  Bumper_is_base_visible : bool;
  Bumper_is_ring_visible : option bool;
  Bumper_is_socket_visible : option bool;
  Bumper_hit_event : option bool;
  Bumper_is_collidable : option bool;
  Bumper_is_reflection_enabled : option bool;
  Bumper_timer : TimerData;
  Bumper_is_locked : bool;
  Bumper_editor_layer : option u32;
  Bumper_editor_layer_name : option rstring;
  Bumper_editor_layer_visibility : option bool;
  Bumper_part_group_name : option rstring }.
Definition Bumper_eta (s : Bumper) : Bumper := mkBumper (Bumper_name s) (Bumper_center s) (Bumper_radius s) (Bumper_threshold s) (Bumper_force s) (Bumper_scatter s) (Bumper_height_scale s) (Bumper_ring_speed s) (Bumper_orientation s) (Bumper_ring_drop_offset s) (Bumper_cap_material s) (Bumper_base_material s) (Bumper_socket_material s) (Bumper_ring_material s) (Bumper_surface s) (Bumper_is_cap_visible s) (Bumper_is_base_visible s) (Bumper_is_ring_visible s) (Bumper_is_socket_visible s) (Bumper_hit_event s) (Bumper_is_collidable s) (Bumper_is_reflection_enabled s) (Bumper_timer s) (Bumper_is_locked s) (Bumper_editor_layer s) (Bumper_editor_layer_name s) (Bumper_editor_layer_visibility s) (Bumper_part_group_name s).
(** Assignments to one field. *)
Definition set_Bumper_name (x : rstring) (s : Bumper) : Bumper := ltac:(setter Bumper_eta Bumper_name s x).
Definition set_Bumper_center (x : Vertex2D) (s : Bumper) : Bumper := ltac:(setter Bumper_eta Bumper_center s x).
Definition set_Bumper_radius (x : f32) (s : Bumper) : Bumper := ltac:(setter Bumper_eta Bumper_radius s x).
Definition set_Bumper_threshold (x : f32) (s : Bumper) : Bumper := ltac:(setter Bumper_eta Bumper_threshold s x).
Definition set_Bumper_force (x : f32) (s : Bumper) : Bumper := ltac:(setter Bumper_eta Bumper_force s x).
Definition set_Bumper_scatter (x : option f32) (s : Bumper) : Bumper := ltac:(setter Bumper_eta Bumper_scatter s x).
Definition set_Bumper_height_scale (x : f32) (s : Bumper) : Bumper := ltac:(setter Bumper_eta Bumper_height_scale s x).
Definition set_Bumper_ring_speed (x : f32) (s : Bumper) : Bumper := ltac:(setter Bumper_eta Bumper_ring_speed s x).
Definition set_Bumper_orientation (x : f32) (s : Bumper) : Bumper := ltac:(setter Bumper_eta Bumper_orientation s x).
Definition set_Bumper_ring_drop_offset (x : option f32) (s : Bumper) : Bumper := ltac:(setter Bumper_eta Bumper_ring_drop_offset s x).
Definition set_Bumper_cap_material (x : rstring) (s : Bumper) : Bumper := ltac:(setter Bumper_eta Bumper_cap_material s x).
Definition set_Bumper_base_material (x : rstring) (s : Bumper) : Bumper := ltac:(setter Bumper_eta Bumper_base_material s x).
Definition set_Bumper_socket_material (x : rstring) (s : Bumper) : Bumper := ltac:(setter Bumper_eta Bumper_socket_material s x).
Definition set_Bumper_ring_material (x : option rstring) (s : Bumper) : Bumper := ltac:(setter Bumper_eta Bumper_ring_material s x).
Definition set_Bumper_surface (x : rstring) (s : Bumper) : Bumper := ltac:(setter Bumper_eta Bumper_surface s x).
Definition set_Bumper_is_cap_visible (x : bool) (s : Bumper) : Bumper := ltac:(setter Bumper_eta Bumper_is_cap_visible s x).
Definition set_Bumper_is_base_visible (x : bool) (s : Bumper) : Bumper := ltac:(setter Bumper_eta Bumper_is_base_visible s x).
Definition set_Bumper_is_ring_visible (x : option bool) (s : Bumper) : Bumper := ltac:(setter Bumper_eta Bumper_is_ring_visible s x).
Definition set_Bumper_is_socket_visible (x : option bool) (s : Bumper) : Bumper := ltac:(setter Bumper_eta Bumper_is_socket_visible s x).
Definition set_Bumper_hit_event (x : option bool) (s : Bumper) : Bumper := ltac:(setter Bumper_eta Bumper_hit_event s x).
Definition set_Bumper_is_collidable (x : option bool) (s : Bumper) : Bumper := ltac:(setter Bumper_eta Bumper_is_collidable s x).
Definition set_Bumper_is_reflection_enabled (x : option bool) (s : Bumper) : Bumper := ltac:(setter Bumper_eta Bumper_is_reflection_enabled s x).
Definition set_Bumper_timer (x : TimerData) (s : Bumper) : Bumper := ltac:(setter Bumper_eta Bumper_timer s x).
Definition set_Bumper_is_locked (x : bool) (s : Bumper) : Bumper := ltac:(setter Bumper_eta Bumper_is_locked s x).
Definition set_Bumper_editor_layer (x : option u32) (s : Bumper) : Bumper := ltac:(setter Bumper_eta Bumper_editor_layer s x).
Definition set_Bumper_editor_layer_name (x : option rstring) (s : Bumper) : Bumper := ltac:(setter Bumper_eta Bumper_editor_layer_name s x).
Definition set_Bumper_editor_layer_visibility (x : option bool) (s : Bumper) : Bumper := ltac:(setter Bumper_eta Bumper_editor_layer_visibility s x).
Definition set_Bumper_part_group_name (x : option rstring) (s : Bumper) : Bumper := ltac:(setter Bumper_eta Bumper_part_group_name s x).
(** gameitem/bumper.rs:130-163 *)
Definition Bumper_default : Bumper := mkBumper
  []
  Vertex2D_default
  (Z_to_w32 1110704128) (* 45.0 *)
  (Z_to_w32 1065353216) (* 1.0 *)
  (Z_to_w32 1097859072) (* 15.0 *)
  None
  (Z_to_w32 1119092736) (* 90.0 *)
  (Z_to_w32 1056964608) (* 0.5 *)
  f32_0
  None
  []
  []
  []
  None
  []
  true
  true
  None
  None
  None
  None
  None
  TimerData_default
  false
  None
  None
  None
  None.
(** gameitem/bumper.rs:64, the macro at gameitem/select.rs:168-207 *)
Definition Bumper_shared : HasShared Bumper := mkHasShared
  Bumper_is_locked Bumper_editor_layer Bumper_editor_layer_name Bumper_editor_layer_visibility Bumper_part_group_name
  set_Bumper_is_locked set_Bumper_editor_layer set_Bumper_editor_layer_name set_Bumper_editor_layer_visibility set_Bumper_part_group_name.
(** gameitem/bumper.rs:225-319, the arms of the record loop and its fallback *)
Definition Bumper_own_arms : list (arm Bumper) :=
  [
    ("VCEN", fun s => x <- Vertex2D_read ;; rret (set_Bumper_center x s)); (* 237 *)
    ("RADI", fun s => x <- get_f32 ;; rret (set_Bumper_radius x s)); (* 240 *)
    ("THRS", fun s => x <- get_f32 ;; rret (set_Bumper_threshold x s)); (* 243 *)
    ("FORC", fun s => x <- get_f32 ;; rret (set_Bumper_force x s)); (* 246 *)
    ("BSCT", fun s => x <- get_f32 ;; rret (set_Bumper_scatter (Some x) s)); (* 249 *)
    ("HISC", fun s => x <- get_f32 ;; rret (set_Bumper_height_scale x s)); (* 252 *)
    ("RISP", fun s => x <- get_f32 ;; rret (set_Bumper_ring_speed x s)); (* 255 *)
    ("ORIN", fun s => x <- get_f32 ;; rret (set_Bumper_orientation x s)); (* 258 *)
    ("RDLI", fun s => x <- get_f32 ;; rret (set_Bumper_ring_drop_offset (Some x) s)); (* 261 *)
    ("MATR", fun s => x <- get_string ;; rret (set_Bumper_cap_material x s)); (* 264 *)
    ("BAMA", fun s => x <- get_string ;; rret (set_Bumper_base_material x s)); (* 267 *)
    ("SKMA", fun s => x <- get_string ;; rret (set_Bumper_socket_material x s)); (* 270 *)
    ("RIMA", fun s => x <- get_string ;; rret (set_Bumper_ring_material (Some x) s)); (* 273 *)
    ("SURF", fun s => x <- get_string ;; rret (set_Bumper_surface x s)); (* 276 *)
    ("NAME", fun s => x <- get_wide_string ;; rret (set_Bumper_name x s)); (* 279 *)
    ("CAVI", fun s => x <- get_bool ;; rret (set_Bumper_is_cap_visible x s)); (* 282 *)
    ("BSVS", fun s => x <- get_bool ;; rret (set_Bumper_is_base_visible x s)); (* 285 *)
    ("RIVS", fun s => x <- get_bool ;; rret (set_Bumper_is_ring_visible (Some x) s)); (* 288 *)
    ("SKVS", fun s => x <- get_bool ;; rret (set_Bumper_is_socket_visible (Some x) s)); (* 291 *)
    ("HAHE", fun s => x <- get_bool ;; rret (set_Bumper_hit_event (Some x) s)); (* 294 *)
    ("COLI", fun s => x <- get_bool ;; rret (set_Bumper_is_collidable (Some x) s)); (* 297 *)
    ("REEN", fun s => x <- get_bool ;; rret (set_Bumper_is_reflection_enabled (Some x) s)) (* 300 *) ]%string.
Definition Bumper_arms : list (arm Bumper) := Bumper_own_arms ++ lift_arms Bumper_timer set_Bumper_timer TimerData_arms ++ shared_arms Bumper_shared.
Definition Bumper_init : Bumper := Bumper_default.
Definition Bumper_read : rd_M Bumper := read_arms Bumper_arms Bumper_init.
(** gameitem/bumper.rs:321-367 *)
Definition Bumper_write (v : Bumper) : wr_M :=
  write_tagged_with "VCEN" (Vertex2D_write (Bumper_center v)) >>>
  write_tagged_f32 "RADI" (Bumper_radius v) >>>
  TimerData_write (Bumper_timer v) >>>
  write_tagged_f32 "THRS" (Bumper_threshold v) >>>
  write_tagged_f32 "FORC" (Bumper_force v) >>>
  wopt (Bumper_scatter v) (fun x => write_tagged_f32 "BSCT" x) >>>
  write_tagged_f32 "HISC" (Bumper_height_scale v) >>>
  write_tagged_f32 "RISP" (Bumper_ring_speed v) >>>
  write_tagged_f32 "ORIN" (Bumper_orientation v) >>>
  wopt (Bumper_ring_drop_offset v) (fun x => write_tagged_f32 "RDLI" x) >>>
  write_tagged_string "MATR" (Bumper_cap_material v) >>>
  write_tagged_string "BAMA" (Bumper_base_material v) >>>
  write_tagged_string "SKMA" (Bumper_socket_material v) >>>
  wopt (Bumper_ring_material v) (fun x => write_tagged_string "RIMA" x) >>>
  write_tagged_string "SURF" (Bumper_surface v) >>>
  write_tagged_wide_string "NAME" (Bumper_name v) >>>
  write_tagged_bool "CAVI" (Bumper_is_cap_visible v) >>>
  write_tagged_bool "BSVS" (Bumper_is_base_visible v) >>>
  wopt (Bumper_is_ring_visible v) (fun x => write_tagged_bool "RIVS" x) >>>
  wopt (Bumper_is_socket_visible v) (fun x => write_tagged_bool "SKVS" x) >>>
  wopt (Bumper_hit_event v) (fun x => write_tagged_bool "HAHE" x) >>>
  wopt (Bumper_is_collidable v) (fun x => write_tagged_bool "COLI" x) >>>
  wopt (Bumper_is_reflection_enabled v) (fun x => write_tagged_bool "REEN" x) >>>
  write_shared_attributes Bumper_shared v >>>
  close true.

(** Generated by tools/gen_items.py from src/vpx/gameitem/lightsequencer.rs. *)
From Verif Require Import Base Text Biff Quantize Common Enums ItemBase.

(** gameitem/lightsequencer.rs:9-32 *)
Record LightSequencer : Type := mkLightSequencer {
  LightSequencer_center : Vertex2D;
  LightSequencer_collection : rstring;
  LightSequencer_pos_x : f32;
  LightSequencer_pos_y : f32;
  LightSequencer_update_interval : u32;
  LightSequencer_name : rstring;
  LightSequencer_backglass : bool;
  LightSequencer_timer : TimerData;
  LightSequencer_is_locked : option bool;
  LightSequencer_editor_layer : option u32;
  LightSequencer_editor_layer_name : option rstring;
  LightSequencer_editor_layer_visibility : option bool;
  LightSequencer_part_group_name : option rstring }.
Definition LightSequencer_eta (s : LightSequencer) : LightSequencer := mkLightSequencer (LightSequencer_center s) (LightSequencer_collection s) (LightSequencer_pos_x s) (LightSequencer_pos_y s) (LightSequencer_update_interval s) (LightSequencer_name s) (LightSequencer_backglass s) (LightSequencer_timer s) (LightSequencer_is_locked s) (LightSequencer_editor_layer s) (LightSequencer_editor_layer_name s) (LightSequencer_editor_layer_visibility s) (LightSequencer_part_group_name s).
(** Assignments to one field. *)
Definition set_LightSequencer_center (x : Vertex2D) (s : LightSequencer) : LightSequencer := ltac:(setter LightSequencer_eta LightSequencer_center s x).
Definition set_LightSequencer_collection (x : rstring) (s : LightSequencer) : LightSequencer := ltac:(setter LightSequencer_eta LightSequencer_collection s x).
Definition set_LightSequencer_pos_x (x : f32) (s : LightSequencer) : LightSequencer := ltac:(setter LightSequencer_eta LightSequencer_pos_x s x).
Definition set_LightSequencer_pos_y (x : f32) (s : LightSequencer) : LightSequencer := ltac:(setter LightSequencer_eta LightSequencer_pos_y s x).
Definition set_LightSequencer_update_interval (x : u32) (s : LightSequencer) : LightSequencer := ltac:(setter LightSequencer_eta LightSequencer_update_interval s x).
Definition set_LightSequencer_name (x : rstring) (s : LightSequencer) : LightSequencer := ltac:(setter LightSequencer_eta LightSequencer_name s x).
Definition set_LightSequencer_backglass (x : bool) (s : LightSequencer) : LightSequencer := ltac:(setter LightSequencer_eta LightSequencer_backglass s x).
Definition set_LightSequencer_timer (x : TimerData) (s : LightSequencer) : LightSequencer := ltac:(setter LightSequencer_eta LightSequencer_timer s x).
Definition set_LightSequencer_is_locked (x : option bool) (s : LightSequencer) : LightSequencer := ltac:(setter LightSequencer_eta LightSequencer_is_locked s x).
Definition set_LightSequencer_editor_layer (x : option u32) (s : LightSequencer) : LightSequencer := ltac:(setter LightSequencer_eta LightSequencer_editor_layer s x).
Definition set_LightSequencer_editor_layer_name (x : option rstring) (s : LightSequencer) : LightSequencer := ltac:(setter LightSequencer_eta LightSequencer_editor_layer_name s x).
Definition set_LightSequencer_editor_layer_visibility (x : option bool) (s : LightSequencer) : LightSequencer := ltac:(setter LightSequencer_eta LightSequencer_editor_layer_visibility s x).
Definition set_LightSequencer_part_group_name (x : option rstring) (s : LightSequencer) : LightSequencer := ltac:(setter LightSequencer_eta LightSequencer_part_group_name s x).
(** gameitem/lightsequencer.rs:105-123 *)
Definition LightSequencer_default : LightSequencer := mkLightSequencer
  Vertex2D_default
  []
  f32_0
  f32_0
  (Z_to_w32 25)
  []
  false
  TimerData_default
  None
  None
  None
  None
  None.
(** gameitem/lightsequencer.rs:125-188, the arms of the record loop and its fallback *)
Definition LightSequencer_own_arms : list (arm LightSequencer) :=
  [
    ("VCEN", fun s => x <- Vertex2D_read ;; rret (set_LightSequencer_center x s)); (* 136 *)
    ("COLC", fun s => x <- get_wide_string ;; rret (set_LightSequencer_collection x s)); (* 139 *)
    ("CTRX", fun s => x <- get_f32 ;; rret (set_LightSequencer_pos_x x s)); (* 142 *)
    ("CTRY", fun s => x <- get_f32 ;; rret (set_LightSequencer_pos_y x s)); (* 145 *)
    ("UPTM", fun s => x <- get_u32 ;; rret (set_LightSequencer_update_interval x s)); (* 148 *)
    ("NAME", fun s => x <- get_wide_string ;; rret (set_LightSequencer_name x s)); (* 151 *)
    ("BGLS", fun s => x <- get_bool ;; rret (set_LightSequencer_backglass x s)); (* 154 *)
    ("LOCK", fun s => x <- get_bool ;; rret (set_LightSequencer_is_locked (Some x) s)); (* 159 *)
    ("LAYR", fun s => x <- get_u32 ;; rret (set_LightSequencer_editor_layer (Some x) s)); (* 162 *)
    ("LANR", fun s => x <- get_string ;; rret (set_LightSequencer_editor_layer_name (Some x) s)); (* 165 *)
    ("LVIS", fun s => x <- get_bool ;; rret (set_LightSequencer_editor_layer_visibility (Some x) s)); (* 168 *)
    ("GRUP", fun s => x <- get_string ;; rret (set_LightSequencer_part_group_name (Some x) s)) (* 171 *) ]%string.
Definition LightSequencer_arms : list (arm LightSequencer) := LightSequencer_own_arms ++ lift_arms LightSequencer_timer set_LightSequencer_timer TimerData_arms.
Definition LightSequencer_init : LightSequencer := LightSequencer_default.
Definition LightSequencer_read : rd_M LightSequencer := read_arms LightSequencer_arms LightSequencer_init.
(** gameitem/lightsequencer.rs:190-221 *)
Definition LightSequencer_write (v : LightSequencer) : wr_M :=
  write_tagged_with "VCEN" (Vertex2D_write (LightSequencer_center v)) >>>
  write_tagged_wide_string "COLC" (LightSequencer_collection v) >>>
  write_tagged_f32 "CTRX" (LightSequencer_pos_x v) >>>
  write_tagged_f32 "CTRY" (LightSequencer_pos_y v) >>>
  write_tagged_u32 "UPTM" (LightSequencer_update_interval v) >>>
  TimerData_write (LightSequencer_timer v) >>>
  write_tagged_wide_string "NAME" (LightSequencer_name v) >>>
  write_tagged_bool "BGLS" (LightSequencer_backglass v) >>>
  wopt (LightSequencer_is_locked v) (fun x => write_tagged_bool "LOCK" x) >>>
  wopt (LightSequencer_part_group_name v) (fun x => write_tagged_string "GRUP" x) >>>
  wopt (LightSequencer_editor_layer v) (fun x => write_tagged_u32 "LAYR" x) >>>
  wopt (LightSequencer_editor_layer_name v) (fun x => write_tagged_string "LANR" x) >>>
  wopt (LightSequencer_editor_layer_visibility v) (fun x => write_tagged_bool "LVIS" x) >>>
  close true.

(** Generated by tools/gen_items.py from src/vpx/gameitem/partgroup.rs. *)
From Verif Require Import Base Text Biff Quantize Common Enums ItemBase.

(** gameitem/partgroup.rs:129-146 *)
Record PartGroup : Type := mkPartGroup {
  PartGroup_name : rstring;
  PartGroup_center : Vertex2D;
  PartGroup_timer : TimerData;
  PartGroup_backglass : bool;
  PartGroup_visibility_mask : option u32;
  PartGroup_space_reference : SpaceReference;
  PartGroup_player_mode_visibility_mask : option u32;
  PartGroup_is_locked : bool;
  PartGroup_editor_layer_name : option rstring;
  PartGroup_editor_layer_visibility : option bool }.
Definition PartGroup_eta (s : PartGroup) : PartGroup := mkPartGroup (PartGroup_name s) (PartGroup_center s) (PartGroup_timer s) (PartGroup_backglass s) (PartGroup_visibility_mask s) (PartGroup_space_reference s) (PartGroup_player_mode_visibility_mask s) (PartGroup_is_locked s) (PartGroup_editor_layer_name s) (PartGroup_editor_layer_visibility s).
(** Assignments to one field. *)
Definition set_PartGroup_name (x : rstring) (s : PartGroup) : PartGroup := ltac:(setter PartGroup_eta PartGroup_name s x).
Definition set_PartGroup_center (x : Vertex2D) (s : PartGroup) : PartGroup := ltac:(setter PartGroup_eta PartGroup_center s x).
Definition set_PartGroup_timer (x : TimerData) (s : PartGroup) : PartGroup := ltac:(setter PartGroup_eta PartGroup_timer s x).
Definition set_PartGroup_backglass (x : bool) (s : PartGroup) : PartGroup := ltac:(setter PartGroup_eta PartGroup_backglass s x).
Definition set_PartGroup_visibility_mask (x : option u32) (s : PartGroup) : PartGroup := ltac:(setter PartGroup_eta PartGroup_visibility_mask s x).
Definition set_PartGroup_space_reference (x : SpaceReference) (s : PartGroup) : PartGroup := ltac:(setter PartGroup_eta PartGroup_space_reference s x).
Definition set_PartGroup_player_mode_visibility_mask (x : option u32) (s : PartGroup) : PartGroup := ltac:(setter PartGroup_eta PartGroup_player_mode_visibility_mask s x).
Definition set_PartGroup_is_locked (x : bool) (s : PartGroup) : PartGroup := ltac:(setter PartGroup_eta PartGroup_is_locked s x).
Definition set_PartGroup_editor_layer_name (x : option rstring) (s : PartGroup) : PartGroup := ltac:(setter PartGroup_eta PartGroup_editor_layer_name s x).
Definition set_PartGroup_editor_layer_visibility (x : option bool) (s : PartGroup) : PartGroup := ltac:(setter PartGroup_eta PartGroup_editor_layer_visibility s x).
(** gameitem/partgroup.rs:148-163 *)
Definition PartGroup_default : PartGroup := mkPartGroup
  []
  Vertex2D_default
  TimerData_default
  false
  None
  SpaceReference_Inherit
  None
  false
  None
  None.
(** gameitem/partgroup.rs:235-290, the arms of the record loop and its fallback *)
Definition PartGroup_own_arms : list (arm PartGroup) :=
  [
    ("NAME", fun s => x <- get_wide_string ;; rret (set_PartGroup_name x s)); (* 247 *)
    ("VCEN", fun s => x <- Vertex2D_read ;; rret (set_PartGroup_center x s)); (* 248 *)
    ("BGLS", fun s => x <- get_bool ;; rret (set_PartGroup_backglass x s)); (* 249 *)
    ("VMSK", fun s => x <- get_u32 ;; rret (set_PartGroup_visibility_mask (Some x) s)); (* 252 *)
    ("SPRF", fun s => z <- get_u32 ;; x <- rlift (SpaceReference_of_u32 z) ;; rret (set_PartGroup_space_reference x s)); (* 255 *)
    ("PMSK", fun s => x <- get_u32 ;; rret (set_PartGroup_player_mode_visibility_mask (Some x) s)); (* 258 *)
    ("LOCK", fun s => x <- get_bool ;; rret (set_PartGroup_is_locked x s)); (* 263 *)
    ("LANR", fun s => x <- get_string ;; rret (set_PartGroup_editor_layer_name (Some x) s)); (* 266 *)
    ("LVIS", fun s => x <- get_bool ;; rret (set_PartGroup_editor_layer_visibility (Some x) s)) (* 269 *) ]%string.
Definition PartGroup_arms : list (arm PartGroup) := PartGroup_own_arms ++ lift_arms PartGroup_timer set_PartGroup_timer TimerData_arms.
Definition PartGroup_init : PartGroup := PartGroup_default.
Definition PartGroup_read : rd_M PartGroup := read_arms PartGroup_arms PartGroup_init.
(** gameitem/partgroup.rs:292-317 *)
Definition PartGroup_write (v : PartGroup) : wr_M :=
  write_tagged_wide_string "NAME" (PartGroup_name v) >>>
  write_tagged_with "VCEN" (Vertex2D_write (PartGroup_center v)) >>>
  TimerData_write (PartGroup_timer v) >>>
  write_tagged_bool "BGLS" (PartGroup_backglass v) >>>
  wopt (PartGroup_visibility_mask v) (fun x => write_tagged_u32 "VMSK" x) >>>
  wopt (PartGroup_player_mode_visibility_mask v) (fun x => write_tagged_u32 "PMSK" x) >>>
  write_tagged_u32 "SPRF" (SpaceReference_to_u32 (PartGroup_space_reference v)) >>>
  write_tagged_bool "LOCK" (PartGroup_is_locked v) >>>
  wopt (PartGroup_editor_layer_visibility v) (fun x => write_tagged_bool "LVIS" x) >>>
  wopt (PartGroup_editor_layer_name v) (fun x => write_tagged_string "LANR" x) >>>
  close true.

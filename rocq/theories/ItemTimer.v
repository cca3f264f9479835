(** Generated by tools/gen_items.py from src/vpx/gameitem/timer.rs. *)
From Verif Require Import Base Text Biff Quantize Common Enums ItemBase.

(** gameitem/timer.rs:10-27 *)
Record Timer : Type := mkTimer {
  Timer_center : Vertex2D;
  Timer_name : rstring;
  Timer_backglass : bool;
  Timer_timer : TimerData;
  Timer_is_locked : bool;
  Timer_editor_layer : option u32;
  Timer_editor_layer_name : option rstring;
  Timer_editor_layer_visibility : option bool;
  Timer_part_group_name : option rstring }.
Definition Timer_eta (s : Timer) : Timer := mkTimer (Timer_center s) (Timer_name s) (Timer_backglass s) (Timer_timer s) (Timer_is_locked s) (Timer_editor_layer s) (Timer_editor_layer_name s) (Timer_editor_layer_visibility s) (Timer_part_group_name s).
(** Assignments to one field. *)
Definition set_Timer_center (x : Vertex2D) (s : Timer) : Timer := ltac:(setter Timer_eta Timer_center s x).
Definition set_Timer_name (x : rstring) (s : Timer) : Timer := ltac:(setter Timer_eta Timer_name s x).
Definition set_Timer_backglass (x : bool) (s : Timer) : Timer := ltac:(setter Timer_eta Timer_backglass s x).
Definition set_Timer_timer (x : TimerData) (s : Timer) : Timer := ltac:(setter Timer_eta Timer_timer s x).
Definition set_Timer_is_locked (x : bool) (s : Timer) : Timer := ltac:(setter Timer_eta Timer_is_locked s x).
Definition set_Timer_editor_layer (x : option u32) (s : Timer) : Timer := ltac:(setter Timer_eta Timer_editor_layer s x).
Definition set_Timer_editor_layer_name (x : option rstring) (s : Timer) : Timer := ltac:(setter Timer_eta Timer_editor_layer_name s x).
Definition set_Timer_editor_layer_visibility (x : option bool) (s : Timer) : Timer := ltac:(setter Timer_eta Timer_editor_layer_visibility s x).
Definition set_Timer_part_group_name (x : option rstring) (s : Timer) : Timer := ltac:(setter Timer_eta Timer_part_group_name s x).
(** gameitem/timer.rs:89-103 *)
Definition Timer_default : Timer := mkTimer
  Vertex2D_default
  (lit "Timer")
  false
  TimerData_default
  false
  None
  None
  None
  None.
(** gameitem/timer.rs:28, the macro at gameitem/select.rs:168-207 *)
Definition Timer_shared : HasShared Timer := mkHasShared
  Timer_is_locked Timer_editor_layer Timer_editor_layer_name Timer_editor_layer_visibility Timer_part_group_name
  set_Timer_is_locked set_Timer_editor_layer set_Timer_editor_layer_name set_Timer_editor_layer_visibility set_Timer_part_group_name.
(** gameitem/timer.rs:105-141, the arms of the record loop and its fallback *)
Definition Timer_own_arms : list (arm Timer) :=
  [
    ("VCEN", fun s => x <- Vertex2D_read ;; rret (set_Timer_center x s)); (* 116 *)
    ("NAME", fun s => x <- get_wide_string ;; rret (set_Timer_name x s)); (* 119 *)
    ("BGLS", fun s => x <- get_bool ;; rret (set_Timer_backglass x s)) (* 122 *) ]%string.
Definition Timer_arms : list (arm Timer) := Timer_own_arms ++ lift_arms Timer_timer set_Timer_timer TimerData_arms ++ shared_arms Timer_shared.
Definition Timer_init : Timer := Timer_default.
Definition Timer_read : rd_M Timer := read_arms Timer_arms Timer_init.
(** gameitem/timer.rs:143-154 *)
Definition Timer_write (v : Timer) : wr_M :=
  write_tagged_with "VCEN" (Vertex2D_write (Timer_center v)) >>>
  TimerData_write (Timer_timer v) >>>
  write_tagged_wide_string "NAME" (Timer_name v) >>>
  write_tagged_bool "BGLS" (Timer_backglass v) >>>
  write_shared_attributes Timer_shared v >>>
  close true.

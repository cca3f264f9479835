(** Generated by tools/gen_structs.py from src/vpx/gamedata.rs. *)
From Verif Require Import Base Text Biff Quantize Common Enums ItemBase.

(** The fields of [GameData] (gamedata.rs:318-1041) that are written from record LEFT to record CLMO. *)
Record GDBounds : Type := mkGDBounds {
  GDBounds_left : f32;
  GDBounds_top : f32;
  GDBounds_right : f32;
  GDBounds_bottom : f32;
  GDBounds_camera_layout_mode : option u32 }.
Definition GDBounds_eta (s : GDBounds) : GDBounds := mkGDBounds (GDBounds_left s) (GDBounds_top s) (GDBounds_right s) (GDBounds_bottom s) (GDBounds_camera_layout_mode s).
(** Assignments to one field. *)
Definition set_GDBounds_left (x : f32) (s : GDBounds) : GDBounds := ltac:(setter GDBounds_eta GDBounds_left s x).
Definition set_GDBounds_top (x : f32) (s : GDBounds) : GDBounds := ltac:(setter GDBounds_eta GDBounds_top s x).
Definition set_GDBounds_right (x : f32) (s : GDBounds) : GDBounds := ltac:(setter GDBounds_eta GDBounds_right s x).
Definition set_GDBounds_bottom (x : f32) (s : GDBounds) : GDBounds := ltac:(setter GDBounds_eta GDBounds_bottom s x).
Definition set_GDBounds_camera_layout_mode (x : option u32) (s : GDBounds) : GDBounds := ltac:(setter GDBounds_eta GDBounds_camera_layout_mode s x).
(** gamedata.rs:1568-1727 *)
Definition GDBounds_default : GDBounds := mkGDBounds
  f32_0
  f32_0
  (Z_to_w32 1148059648) (* 952.0 *)
  (Z_to_w32 1158094848) (* 2162.0 *)
  None.
(** gamedata.rs:2087-2323, the arms of the record loop and its fallback *)
Definition GDBounds_own_arms : list (arm GDBounds) :=
  [
    ("LEFT", fun s => x <- get_f32 ;; rret (set_GDBounds_left x s)); (* 2101 *)
    ("TOPX", fun s => x <- get_f32 ;; rret (set_GDBounds_top x s)); (* 2102 *)
    ("RGHT", fun s => x <- get_f32 ;; rret (set_GDBounds_right x s)); (* 2103 *)
    ("BOTM", fun s => x <- get_f32 ;; rret (set_GDBounds_bottom x s)); (* 2104 *)
    ("CLMO", fun s => x <- get_u32 ;; rret (set_GDBounds_camera_layout_mode (Some x) s)) (* 2105 *) ]%string.
Definition GDBounds_arms : list (arm GDBounds) := GDBounds_own_arms.
(** gamedata.rs:1735-2085, the part from LEFT to CLMO (EFSS excepted) *)
Definition GDBounds_write (v : GDBounds) : wr_M :=
  write_tagged_f32 "LEFT" (GDBounds_left v) >>>
  write_tagged_f32 "TOPX" (GDBounds_top v) >>>
  write_tagged_f32 "RGHT" (GDBounds_right v) >>>
  write_tagged_f32 "BOTM" (GDBounds_bottom v) >>>
  wopt (GDBounds_camera_layout_mode v) (fun x => write_tagged_u32 "CLMO" x) >>>
  wskip.

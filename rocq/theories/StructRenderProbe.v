(** Generated by tools/gen_structs.py from src/vpx/renderprobe.rs. *)
From Verif Require Import Base Text Biff Quantize Common Enums ItemBase.

(** renderprobe.rs:227-239 *)
Record RenderProbe : Type := mkRenderProbe {
  RenderProbe_type_ : RenderProbeType;
  RenderProbe_name : rstring;
  RenderProbe_roughness : u32;
  RenderProbe_roughness_clear : option u32;
  RenderProbe_reflection_plane : Vertex4D;
  RenderProbe_reflection_mode : ReflectionMode;
  RenderProbe_disable_light_reflection : option bool }.
Definition RenderProbe_eta (s : RenderProbe) : RenderProbe := mkRenderProbe (RenderProbe_type_ s) (RenderProbe_name s) (RenderProbe_roughness s) (RenderProbe_roughness_clear s) (RenderProbe_reflection_plane s) (RenderProbe_reflection_mode s) (RenderProbe_disable_light_reflection s).
(** Assignments to one field. *)
Definition set_RenderProbe_type_ (x : RenderProbeType) (s : RenderProbe) : RenderProbe := ltac:(setter RenderProbe_eta RenderProbe_type_ s x).
Definition set_RenderProbe_name (x : rstring) (s : RenderProbe) : RenderProbe := ltac:(setter RenderProbe_eta RenderProbe_name s x).
Definition set_RenderProbe_roughness (x : u32) (s : RenderProbe) : RenderProbe := ltac:(setter RenderProbe_eta RenderProbe_roughness s x).
Definition set_RenderProbe_roughness_clear (x : option u32) (s : RenderProbe) : RenderProbe := ltac:(setter RenderProbe_eta RenderProbe_roughness_clear s x).
Definition set_RenderProbe_reflection_plane (x : Vertex4D) (s : RenderProbe) : RenderProbe := ltac:(setter RenderProbe_eta RenderProbe_reflection_plane s x).
Definition set_RenderProbe_reflection_mode (x : ReflectionMode) (s : RenderProbe) : RenderProbe := ltac:(setter RenderProbe_eta RenderProbe_reflection_mode s x).
Definition set_RenderProbe_disable_light_reflection (x : option bool) (s : RenderProbe) : RenderProbe := ltac:(setter RenderProbe_eta RenderProbe_disable_light_reflection s x).
(** renderprobe.rs:306-318 *)
Definition RenderProbe_default : RenderProbe := mkRenderProbe
  RenderProbeType_PlaneReflection
  []
  (Z_to_w32 0)
  None
  Vertex4D_default
  ReflectionMode_None
  None.
(** renderprobe.rs:320-350, the arms of the record loop and its fallback *)
Definition RenderProbe_own_arms : list (arm RenderProbe) :=
  [
    ("TYPE", fun s => z <- get_u32 ;; x <- rlift (RenderProbeType_of_u32 z) ;; rret (set_RenderProbe_type_ x s)); (* 331 *)
    ("NAME", fun s => x <- get_string ;; rret (set_RenderProbe_name x s)); (* 332 *)
    ("RBAS", fun s => x <- get_u32 ;; rret (set_RenderProbe_roughness x s)); (* 333 *)
    ("RCLE", fun s => x <- get_u32 ;; rret (set_RenderProbe_roughness_clear (Some x) s)); (* 334 *)
    ("RPLA", fun s => x <- Vertex4D_read ;; rret (set_RenderProbe_reflection_plane x s)); (* 335 *)
    ("RMOD", fun s => z <- get_u32 ;; x <- rlift (ReflectionMode_of_u32 z) ;; rret (set_RenderProbe_reflection_mode x s)); (* 336 *)
    ("RLMP", fun s => x <- get_bool ;; rret (set_RenderProbe_disable_light_reflection (Some x) s)) (* 337 *) ]%string.
Definition RenderProbe_arms : list (arm RenderProbe) := RenderProbe_own_arms.
Definition RenderProbe_init : RenderProbe := RenderProbe_default.
Definition RenderProbe_read : rd_M RenderProbe := read_arms RenderProbe_arms RenderProbe_init.
(** renderprobe.rs:352-367 *)
Definition RenderProbe_write (v : RenderProbe) : wr_M :=
  write_tagged_u32 "TYPE" (RenderProbeType_to_u32 (RenderProbe_type_ v)) >>>
  write_tagged_string "NAME" (RenderProbe_name v) >>>
  write_tagged_u32 "RBAS" (RenderProbe_roughness v) >>>
  wopt (RenderProbe_roughness_clear v) (fun x => write_tagged_u32 "RCLE" x) >>>
  write_tagged_with "RPLA" (Vertex4D_write (RenderProbe_reflection_plane v)) >>>
  write_tagged_u32 "RMOD" (ReflectionMode_to_u32 (RenderProbe_reflection_mode v)) >>>
  wopt (RenderProbe_disable_light_reflection v) (fun x => write_tagged_bool "RLMP" x) >>>
  close true.

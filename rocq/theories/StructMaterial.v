(** Generated by tools/gen_structs.py from src/vpx/material.rs. *)
From Verif Require Import Base Text Biff Quantize Common Enums ItemBase.

(** material.rs:461-532 *)
Record Material : Type := mkMaterial {
  Material_name : rstring;
  Material_type_ : MaterialType;
  Material_wrap_lighting : f32;
  Material_roughness : f32;
  Material_glossy_image_lerp : f32;
  Material_thickness : f32;
  Material_edge : f32;
  Material_edge_alpha : f32;
  Material_opacity : f32;
  Material_base_color : Color;
  Material_glossy_color : Color;
  Material_clearcoat_color : Color;
  Material_opacity_active : bool;
  Material_elasticity : f32;
  Material_elasticity_falloff : f32;
  Material_friction : f32;
  Material_scatter_angle : f32;
  Material_refraction_tint : Color }.
Definition Material_eta (s : Material) : Material := mkMaterial (Material_name s) (Material_type_ s) (Material_wrap_lighting s) (Material_roughness s) (Material_glossy_image_lerp s) (Material_thickness s) (Material_edge s) (Material_edge_alpha s) (Material_opacity s) (Material_base_color s) (Material_glossy_color s) (Material_clearcoat_color s) (Material_opacity_active s) (Material_elasticity s) (Material_elasticity_falloff s) (Material_friction s) (Material_scatter_angle s) (Material_refraction_tint s).
(** Assignments to one field. *)
Definition set_Material_name (x : rstring) (s : Material) : Material := ltac:(setter Material_eta Material_name s x).
Definition set_Material_type_ (x : MaterialType) (s : Material) : Material := ltac:(setter Material_eta Material_type_ s x).
Definition set_Material_wrap_lighting (x : f32) (s : Material) : Material := ltac:(setter Material_eta Material_wrap_lighting s x).
Definition set_Material_roughness (x : f32) (s : Material) : Material := ltac:(setter Material_eta Material_roughness s x).
Definition set_Material_glossy_image_lerp (x : f32) (s : Material) : Material := ltac:(setter Material_eta Material_glossy_image_lerp s x).
Definition set_Material_thickness (x : f32) (s : Material) : Material := ltac:(setter Material_eta Material_thickness s x).
Definition set_Material_edge (x : f32) (s : Material) : Material := ltac:(setter Material_eta Material_edge s x).
Definition set_Material_edge_alpha (x : f32) (s : Material) : Material := ltac:(setter Material_eta Material_edge_alpha s x).
Definition set_Material_opacity (x : f32) (s : Material) : Material := ltac:(setter Material_eta Material_opacity s x).
Definition set_Material_base_color (x : Color) (s : Material) : Material := ltac:(setter Material_eta Material_base_color s x).
Definition set_Material_glossy_color (x : Color) (s : Material) : Material := ltac:(setter Material_eta Material_glossy_color s x).
Definition set_Material_clearcoat_color (x : Color) (s : Material) : Material := ltac:(setter Material_eta Material_clearcoat_color s x).
Definition set_Material_opacity_active (x : bool) (s : Material) : Material := ltac:(setter Material_eta Material_opacity_active s x).
Definition set_Material_elasticity (x : f32) (s : Material) : Material := ltac:(setter Material_eta Material_elasticity s x).
Definition set_Material_elasticity_falloff (x : f32) (s : Material) : Material := ltac:(setter Material_eta Material_elasticity_falloff s x).
Definition set_Material_friction (x : f32) (s : Material) : Material := ltac:(setter Material_eta Material_friction s x).
Definition set_Material_scatter_angle (x : f32) (s : Material) : Material := ltac:(setter Material_eta Material_scatter_angle s x).
Definition set_Material_refraction_tint (x : Color) (s : Material) : Material := ltac:(setter Material_eta Material_refraction_tint s x).
(** material.rs:604-627 *)
Definition Material_default : Material := mkMaterial
  (lit "dummyMaterial")
  MaterialType_Basic
  f32_0
  f32_0
  (Z_to_w32 1065353216) (* 1.0 *)
  (Z_to_w32 1028443341) (* 0.05 *)
  (Z_to_w32 1065353216) (* 1.0 *)
  (Z_to_w32 1065353216) (* 1.0 *)
  (Z_to_w32 1065353216) (* 1.0 *)
  (Color_from_rgb 11823615)
  Color_BLACK
  Color_BLACK
  false
  f32_0
  f32_0
  f32_0
  f32_0
  Color_WHITE.
(** material.rs:679-720, the arms of the record loop and its fallback *)
Definition Material_own_arms : list (arm Material) :=
  [
    ("TYPE", fun s => z <- get_i32 ;; x <- rlift (MaterialType_of_i32 z) ;; rret (set_Material_type_ x s)); (* 690 *)
    ("NAME", fun s => x <- get_string ;; rret (set_Material_name x s)); (* 691 *)
    ("WLIG", fun s => x <- get_f32 ;; rret (set_Material_wrap_lighting x s)); (* 692 *)
    ("ROUG", fun s => x <- get_f32 ;; rret (set_Material_roughness x s)); (* 693 *)
    ("GIML", fun s => x <- get_f32 ;; rret (set_Material_glossy_image_lerp x s)); (* 694 *)
    ("THCK", fun s => x <- get_f32 ;; rret (set_Material_thickness x s)); (* 695 *)
    ("EDGE", fun s => x <- get_f32 ;; rret (set_Material_edge x s)); (* 696 *)
    ("EALP", fun s => x <- get_f32 ;; rret (set_Material_edge_alpha x s)); (* 697 *)
    ("OPAC", fun s => x <- get_f32 ;; rret (set_Material_opacity x s)); (* 698 *)
    ("BASE", fun s => x <- Color_read ;; rret (set_Material_base_color x s)); (* 699 *)
    ("GLOS", fun s => x <- Color_read ;; rret (set_Material_glossy_color x s)); (* 700 *)
    ("COAT", fun s => x <- Color_read ;; rret (set_Material_clearcoat_color x s)); (* 701 *)
    ("RTNT", fun s => x <- Color_read ;; rret (set_Material_refraction_tint x s)); (* 702 *)
    ("EOPA", fun s => x <- get_bool ;; rret (set_Material_opacity_active x s)); (* 703 *)
    ("ELAS", fun s => x <- get_f32 ;; rret (set_Material_elasticity x s)); (* 704 *)
    ("ELFO", fun s => x <- get_f32 ;; rret (set_Material_elasticity_falloff x s)); (* 705 *)
    ("FRIC", fun s => x <- get_f32 ;; rret (set_Material_friction x s)); (* 706 *)
    ("SCAT", fun s => x <- get_f32 ;; rret (set_Material_scatter_angle x s)) (* 707 *) ]%string.
Definition Material_arms : list (arm Material) := Material_own_arms.
Definition Material_init : Material := Material_default.
Definition Material_read : rd_M Material := read_arms Material_arms Material_init.
(** material.rs:722-744 *)
Definition Material_write (v : Material) : wr_M :=
  write_tagged_i32 "TYPE" (MaterialType_to_i32 (Material_type_ v)) >>>
  write_tagged_string "NAME" (Material_name v) >>>
  write_tagged_f32 "WLIG" (Material_wrap_lighting v) >>>
  write_tagged_f32 "ROUG" (Material_roughness v) >>>
  write_tagged_f32 "GIML" (Material_glossy_image_lerp v) >>>
  write_tagged_f32 "THCK" (Material_thickness v) >>>
  write_tagged_f32 "EDGE" (Material_edge v) >>>
  write_tagged_f32 "EALP" (Material_edge_alpha v) >>>
  write_tagged_f32 "OPAC" (Material_opacity v) >>>
  write_tagged_with "BASE" (Color_write (Material_base_color v)) >>>
  write_tagged_with "GLOS" (Color_write (Material_glossy_color v)) >>>
  write_tagged_with "COAT" (Color_write (Material_clearcoat_color v)) >>>
  write_tagged_with "RTNT" (Color_write (Material_refraction_tint v)) >>>
  write_tagged_bool "EOPA" (Material_opacity_active v) >>>
  write_tagged_f32 "ELAS" (Material_elasticity v) >>>
  write_tagged_f32 "ELFO" (Material_elasticity_falloff v) >>>
  write_tagged_f32 "FRIC" (Material_friction v) >>>
  write_tagged_f32 "SCAT" (Material_scatter_angle v) >>>
  close true.

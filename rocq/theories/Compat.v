(** The view of old files that the exporters use: src/vpx/compat.rs. *)
From Coq Require Import Floats.SpecFloat.
From Verif Require Import Base Text Biff Quantize Common Enums ItemBase ItemLight ItemPrimitive Structs.

(** compat.rs:57-62 [VPX_10_8], [is_pre_10_8] *)
Definition VPX_10_8 : Z := 1080.
Definition is_pre_10_8 (version : u32) : bool := w32_to_Z version <? VPX_10_8.

(** [str::eq_ignore_ascii_case]; here on characters, in the standard library on the bytes of the UTF-8 form *)
Definition to_ascii_lowercase (c : uchar) : uchar := if ((65 <=? c) && (c <=? 90))%N then (c + 32)%N else c.
Fixpoint eq_ignore_ascii_case (a b : rstring) : bool :=
  match a, b with
  | [], [] => true
  | c :: a', d :: b' => (to_ascii_lowercase c =? to_ascii_lowercase d)%N && eq_ignore_ascii_case a' b'
  | _, _ => false
  end.
(** gameitem/primitive.rs:601-603 [is_playfield] *)
Definition is_playfield (p : Primitive) : bool := eq_ignore_ascii_case (Primitive_name p) (lit "playfield_mesh").

(** compat.rs:73-78 *)
Definition primitive_is_visible (p : Primitive) (version : u32) : bool :=
  if is_pre_10_8 version && is_playfield p then true else Primitive_is_visible p.
(** compat.rs:84-89 *)
Definition primitive_static_rendering (p : Primitive) (version : u32) : bool :=
  if is_pre_10_8 version && is_playfield p then true else Primitive_static_rendering p.
(** 100000.0 as an f32 *)
Definition f32_100000 : f32 := f32_bits (f32_of_Z 100000).
(** compat.rs:95-100 *)
Definition primitive_depth_bias (p : Primitive) (version : u32) : f32 :=
  if is_pre_10_8 version && is_playfield p then f32_100000 else Primitive_depth_bias p.
(** compat.rs:105-110 *)
Definition primitive_backfaces_enabled (p : Primitive) (version : u32) : option bool :=
  if is_pre_10_8 version && is_playfield p then Some false else Primitive_backfaces_enabled p.
(** [x == y] on f32 *)
Definition f32_eqb (x y : f32) : bool := SFeqb (f32_value x) (f32_value y).
(** compat.rs:122-139 *)
Definition primitive_disable_lighting_below (p : Primitive) (material_opacity : option (bool * f32)) (version : u32) : option f32 :=
  if is_pre_10_8 version then
    if is_playfield p then Some f32_1
    else match material_opacity with
         | Some (opacity_active, opacity) =>
             if negb opacity_active || f32_eqb opacity f32_1 then Some f32_1 else Primitive_disable_lighting_below p
         | None => Primitive_disable_lighting_below p
         end
  else Primitive_disable_lighting_below p.

(** compat.rs:149-158 *)
Definition light_height (l : Light) (version : u32) : option f32 :=
  if is_pre_10_8 version then Some (if Light_is_bulb_light l then Light_bulb_halo_height l else f32_0) else Light_height l.
(** compat.rs:164-174 *)
Definition light_show_bulb_mesh (l : Light) (version : u32) : bool :=
  if is_pre_10_8 version then
    if negb (Light_is_bulb_light l) then false
    else if negb (match Light_visible l with Some v => v | None => true end) then false
    else Light_show_bulb_mesh l
  else Light_show_bulb_mesh l.
(** compat.rs:179-184 *)
Definition light_show_reflection_on_ball (l : Light) (version : u32) : bool :=
  if is_pre_10_8 version && negb (Light_is_bulb_light l) then false else Light_show_reflection_on_ball l.
(** compat.rs:197-206 *)
Definition glass_bottom_height (top : f32) (bottom : option f32) (version : u32) : f32 :=
  if is_pre_10_8 version then top else match bottom with Some b => b | None => top end.

(** What loading an old table changes in it (the rules of the player for files before version 10.8). *)
From Verif Require Import Base Text Biff Quantize Common Enums ItemBase ItemLight ItemPrimitive Structs.

(** [s] is [t] (written in lower case) up to the case of ASCII letters *)
Definition same_up_to_case (s t : rstring) : Prop :=
  Forall2 (fun c l => c = l \/ ((97 <= l <= 122)%N /\ (c + 32 = l)%N)) s t.
Definition called_playfield (p : Primitive) : Prop := same_up_to_case (Primitive_name p) (lit "playfield_mesh").
(** The bits of the f32 values 1 and 100000 *)
Definition one : f32 := Z_to_w32 0x3f800000.
Definition hundred_thousand : f32 := Z_to_w32 0x47c35000.
(** A resolved material is opaque if its opacity is switched off or exactly 1 *)
Definition opaque (material : option (bool * f32)) : Prop := exists active opacity, material = Some (active, opacity) /\ (active = false \/ opacity = one).

(** The primitive as an old or a new file shows it *)
Definition loaded_primitive (version : u32) (material : option (bool * f32)) (p q : Primitive) : Prop :=
  (1080 <= w32_to_Z version /\ q = p) \/
  (w32_to_Z version < 1080 /\
   ((called_playfield p /\
     q = set_Primitive_is_visible true (set_Primitive_static_rendering true (set_Primitive_depth_bias hundred_thousand
           (set_Primitive_backfaces_enabled (Some false) (set_Primitive_disable_lighting_below (Some one) p))))) \/
    (~ called_playfield p /\ opaque material /\ q = set_Primitive_disable_lighting_below (Some one) p) \/
    (~ called_playfield p /\ ~ opaque material /\ q = p))).
(** The light as an old or a new file shows it; a light is invisible only if the file says so *)
Definition loaded_light (version : u32) (l k : Light) : Prop :=
  (1080 <= w32_to_Z version /\ k = l) \/
  (w32_to_Z version < 1080 /\
   ((Light_is_bulb_light l = true /\ Light_visible l = Some false /\
     k = set_Light_show_bulb_mesh false (set_Light_height (Some (Light_bulb_halo_height l)) l)) \/
    (Light_is_bulb_light l = true /\ Light_visible l <> Some false /\ k = set_Light_height (Some (Light_bulb_halo_height l)) l) \/
    (Light_is_bulb_light l = false /\
     k = set_Light_show_bulb_mesh false (set_Light_show_reflection_on_ball false (set_Light_height (Some (Z_to_w32 0)) l))))).

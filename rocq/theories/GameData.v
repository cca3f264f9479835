(** Game data (src/vpx/gamedata.rs): the record stream of [GameStg/GameData], put together from the generated groups of
    fields GDBounds, GDDesktop, GDCabinet, GDPhysics, GDScene and the rest below. *)
From Verif Require Import Base Text Biff Quantize Common Enums ItemBase StructMaterial StructRenderProbe Structs.
From Verif Require Import GDBounds GDDesktop GDCabinet GDPhysics GDScene.

(** gamedata.rs:318-1041: the fields written from record MASI to record TLCK *)
Record GDTail : Type := mkGDTail {
  gt_materials_size : u32;
  gt_materials_old : list SaveMaterial;
  gt_materials_physics_old : option (list SavePhysicsMaterial);
  gt_materials : option (list Material);
  gt_render_probes : option (list RenderProbeWithGarbage);
  gt_gameitems_size : u32; gt_sounds_size : u32; gt_images_size : u32; gt_fonts_size : u32; gt_collections_size : u32;
  gt_name : rstring;
  gt_custom_colors : list Color; (* an array of 16 *)
  gt_protection_data : option bytes;
  gt_code : StringWithEncoding;
  gt_locked : option u32 }.
Definition GDTail_eta (s : GDTail) : GDTail :=
  mkGDTail (gt_materials_size s) (gt_materials_old s) (gt_materials_physics_old s) (gt_materials s) (gt_render_probes s)
    (gt_gameitems_size s) (gt_sounds_size s) (gt_images_size s) (gt_fonts_size s) (gt_collections_size s) (gt_name s)
    (gt_custom_colors s) (gt_protection_data s) (gt_code s) (gt_locked s).
Definition set_gt_materials_size (x : u32) (s : GDTail) : GDTail := ltac:(setter GDTail_eta gt_materials_size s x).
Definition set_gt_materials_old (x : list SaveMaterial) (s : GDTail) : GDTail := ltac:(setter GDTail_eta gt_materials_old s x).
Definition set_gt_materials_physics_old (x : option (list SavePhysicsMaterial)) (s : GDTail) : GDTail := ltac:(setter GDTail_eta gt_materials_physics_old s x).
Definition set_gt_materials (x : option (list Material)) (s : GDTail) : GDTail := ltac:(setter GDTail_eta gt_materials s x).
Definition set_gt_render_probes (x : option (list RenderProbeWithGarbage)) (s : GDTail) : GDTail := ltac:(setter GDTail_eta gt_render_probes s x).
Definition set_gt_gameitems_size (x : u32) (s : GDTail) : GDTail := ltac:(setter GDTail_eta gt_gameitems_size s x).
Definition set_gt_sounds_size (x : u32) (s : GDTail) : GDTail := ltac:(setter GDTail_eta gt_sounds_size s x).
Definition set_gt_images_size (x : u32) (s : GDTail) : GDTail := ltac:(setter GDTail_eta gt_images_size s x).
Definition set_gt_fonts_size (x : u32) (s : GDTail) : GDTail := ltac:(setter GDTail_eta gt_fonts_size s x).
Definition set_gt_collections_size (x : u32) (s : GDTail) : GDTail := ltac:(setter GDTail_eta gt_collections_size s x).
Definition set_gt_name (x : rstring) (s : GDTail) : GDTail := ltac:(setter GDTail_eta gt_name s x).
Definition set_gt_custom_colors (x : list Color) (s : GDTail) : GDTail := ltac:(setter GDTail_eta gt_custom_colors s x).
Definition set_gt_protection_data (x : option bytes) (s : GDTail) : GDTail := ltac:(setter GDTail_eta gt_protection_data s x).
Definition set_gt_code (x : StringWithEncoding) (s : GDTail) : GDTail := ltac:(setter GDTail_eta gt_code s x).
Definition set_gt_locked (x : option u32) (s : GDTail) : GDTail := ltac:(setter GDTail_eta gt_locked s x).
(** gamedata.rs:1568-1727 *)
Definition GDTail_default : GDTail :=
  mkGDTail (Z_to_w32 0) [] None None None (Z_to_w32 0) (Z_to_w32 0) (Z_to_w32 0) (Z_to_w32 0) (Z_to_w32 0) (lit "Table1")
    (repeat Color_BLACK 16) None swe_empty None.

(** [BiffReader::new(&data)] inside a record loop: a reader of its own on the bytes of one record. *)
Definition nested {A} (m : rd_M A) (b : bytes) : rd_M A :=
  fun r => match m (rd_new (r_checked r) b) with Ok (x, _) => Ok (x, r) | Fail f => Fail f end.
(** Running a cursor on the bytes of one record; bytes that are left over are ignored. *)
Definition cursor {A} (m : cu_M A) (b : bytes) : rd_M A :=
  rlift (match m b with Ok (x, _) => Ok x | Fail f => Fail f end).
(** [opt.get_or_insert_with(Vec::new).push(x)] *)
Definition opt_push {A} (o : option (list A)) (x : A) : option (list A) :=
  Some (match o with Some l => l ++ [x] | None => [x] end).

(** gamedata.rs:2325-2335 [read_colors]; [get_u32_le] panics when fewer than 64 bytes are given *)
Definition read_colors : cu_M (list Color) := l <-- cu_repeat 16 cu_32 ;; cret (map color_of_w32 l).
(** gamedata.rs:2337-2343 [write_colors] *)
Definition write_colors (l : list Color) : bytes := flat_map win_color_bytes l.

(** gamedata.rs:2253-2314 *)
Definition GDTail_arms : list (arm GDTail) :=
  [ ("MASI"%string, fun s => x <- get_u32 ;; rret (set_gt_materials_size x s));
    ("MATE"%string, fun s => d <- get_record_data false ;;
        x <- cursor (cu_repeat (Z.to_nat (w32_to_Z (gt_materials_size s))) SaveMaterial_read) d ;;
        rret (set_gt_materials_old x s));
    ("PHMA"%string, fun s => d <- get_record_data false ;;
        x <- cursor (cu_repeat (Z.to_nat (w32_to_Z (gt_materials_size s))) SavePhysicsMaterial_read) d ;;
        rret (set_gt_materials_physics_old (Some x) s));
    ("MATR"%string, fun s => d <- get_record_data false ;; x <- nested Material_read d ;;
        rret (set_gt_materials (opt_push (gt_materials s) x) s));
    ("RPRB"%string, fun s => d <- get_record_data false ;; x <- nested RenderProbeG_read d ;;
        rret (set_gt_render_probes (opt_push (gt_render_probes s) x) s));
    ("SEDT"%string, fun s => x <- get_u32 ;; rret (set_gt_gameitems_size x s));
    ("SSND"%string, fun s => x <- get_u32 ;; rret (set_gt_sounds_size x s));
    ("SIMG"%string, fun s => x <- get_u32 ;; rret (set_gt_images_size x s));
    ("SFNT"%string, fun s => x <- get_u32 ;; rret (set_gt_fonts_size x s));
    ("SCOL"%string, fun s => x <- get_u32 ;; rret (set_gt_collections_size x s));
    ("NAME"%string, fun s => x <- get_wide_string ;; rret (set_gt_name x s));
    ("CCUS"%string, fun s => d <- get_record_data false ;; x <- cursor read_colors d ;; rret (set_gt_custom_colors x s));
    ("SECB"%string, fun s => d <- get_record_data false ;; rret (set_gt_protection_data (Some d) s));
    ("CODE"%string, fun s => n <- get_u32_no_remaining_update ;;
        x <- get_str_with_encoding_no_remaining_update (w32_to_Z n) ;; rret (set_gt_code x s));
    ("TLCK"%string, fun s => x <- get_u32 ;; rret (set_gt_locked (Some x) s)) ].
(** gamedata.rs:2036-2081 *)
Definition GDTail_write (v : GDTail) : wr_M :=
  write_tagged_u32 "MASI" (gt_materials_size v) >>>
  wlift (concat_res SaveMaterial_write (gt_materials_old v)) (fun b => write_tagged_data "MATE" b) >>>
  wopt (gt_materials_physics_old v) (fun l =>
    wlift (concat_res SavePhysicsMaterial_write l) (fun b => write_tagged_data "PHMA" b)) >>>
  wopt (gt_materials v) (fun l =>
    wfor l (fun x => wlift (run_writer (Material_write x)) (fun b => write_tagged_data "MATR" b))) >>>
  wopt (gt_render_probes v) (fun l =>
    wfor l (fun x => wlift (run_writer (RenderProbeG_write x)) (fun b => write_tagged_data "RPRB" b))) >>>
  write_tagged_u32 "SEDT" (gt_gameitems_size v) >>>
  write_tagged_u32 "SSND" (gt_sounds_size v) >>>
  write_tagged_u32 "SIMG" (gt_images_size v) >>>
  write_tagged_u32 "SFNT" (gt_fonts_size v) >>>
  write_tagged_u32 "SCOL" (gt_collections_size v) >>>
  write_tagged_wide_string "NAME" (gt_name v) >>>
  write_tagged_data "CCUS" (write_colors (gt_custom_colors v)) >>>
  wopt (gt_protection_data v) (fun d => write_tagged_data "SECB" d) >>>
  write_tagged_string_with_encoding_no_size "CODE" (gt_code v) >>>
  wopt (gt_locked v) (fun x => write_tagged_u32 "TLCK" x) >>>
  close true.

(** gamedata.rs:318-1041: all fields; [gd_beta] is [is_10_8_0_beta1_to_beta4], [gd_bg_enable_fss] is [bg_enable_fss] *)
Record GameData : Type := mkGameData {
  gd_bounds : GDBounds; gd_desktop : GDDesktop; gd_cabinet : GDCabinet; gd_physics : GDPhysics; gd_scene : GDScene;
  gd_tail : GDTail; gd_bg_enable_fss : option bool; gd_beta : bool }.
Definition GameData_eta (s : GameData) : GameData :=
  mkGameData (gd_bounds s) (gd_desktop s) (gd_cabinet s) (gd_physics s) (gd_scene s) (gd_tail s) (gd_bg_enable_fss s) (gd_beta s).
Definition set_gd_bounds (x : GDBounds) (s : GameData) : GameData := ltac:(setter GameData_eta gd_bounds s x).
Definition set_gd_desktop (x : GDDesktop) (s : GameData) : GameData := ltac:(setter GameData_eta gd_desktop s x).
Definition set_gd_cabinet (x : GDCabinet) (s : GameData) : GameData := ltac:(setter GameData_eta gd_cabinet s x).
Definition set_gd_physics (x : GDPhysics) (s : GameData) : GameData := ltac:(setter GameData_eta gd_physics s x).
Definition set_gd_scene (x : GDScene) (s : GameData) : GameData := ltac:(setter GameData_eta gd_scene s x).
Definition set_gd_tail (x : GDTail) (s : GameData) : GameData := ltac:(setter GameData_eta gd_tail s x).
Definition set_gd_bg_enable_fss (x : option bool) (s : GameData) : GameData := ltac:(setter GameData_eta gd_bg_enable_fss s x).
Definition set_gd_beta (x : bool) (s : GameData) : GameData := ltac:(setter GameData_eta gd_beta s x).
(** gamedata.rs:1568-1727 *)
Definition GameData_default : GameData :=
  mkGameData GDBounds_default GDDesktop_default GDCabinet_default GDPhysics_default GDScene_default GDTail_default None false.

(** gamedata.rs:2099-2319: the arms of the record loop, EFSS excepted *)
Definition GameData_arms : list (arm GameData) :=
  lift_arms gd_bounds set_gd_bounds GDBounds_arms ++
  lift_arms gd_desktop set_gd_desktop GDDesktop_arms ++
  lift_arms gd_cabinet set_gd_cabinet GDCabinet_arms ++
  lift_arms gd_physics set_gd_physics GDPhysics_arms ++
  lift_arms gd_scene set_gd_scene GDScene_arms ++
  lift_arms gd_tail set_gd_tail GDTail_arms.
(** gamedata.rs:2097-2320: one turn of the loop; the state is the game data and [previous_tag] *)
Definition GameData_handler (version : Z) (t : string) (s : GameData * string) : rd_M (GameData * string) :=
  let '(g, previous_tag) := s in
  g' <- (if (t =? "EFSS")%string then
           let g1 := if (version =? 1080) && negb (previous_tag =? "BOTM")%string then set_gd_beta true g else g in
           x <- get_bool ;; rret (set_gd_bg_enable_fss (Some x) g1)
         else dispatch_data GameData_arms t g) ;;
  rret (g', t).
Definition GameData_loop (version : Z) : rd_M (GameData * string) :=
  run_loop (GameData_handler version) (GameData_default, ""%string).
(** gamedata.rs:2087-2323 [read_all_gamedata_records] *)
Definition GameData_read (version : Z) (checked : bool) (input : bytes) : res GameData :=
  s <~ run_reader (GameData_loop version) checked input ;; Ok (fst s).
(** gamedata.rs:1735-2085 [write_all_gamedata_records] *)
Definition GameData_write_m (version : Z) (v : GameData) : wr_M :=
  GDBounds_write (gd_bounds v) >>>
  (if (1080 <=? version) && negb (gd_beta v) then wopt (gd_bg_enable_fss v) (fun x => write_tagged_bool "EFSS" x) else wskip) >>>
  GDDesktop_write (gd_desktop v) >>>
  (if (version <? 1080) || gd_beta v then wopt (gd_bg_enable_fss v) (fun x => write_tagged_bool "EFSS" x) else wskip) >>>
  GDCabinet_write (gd_cabinet v) >>>
  GDPhysics_write (gd_physics v) >>>
  GDScene_write (gd_scene v) >>>
  GDTail_write (gd_tail v).
Definition GameData_write (version : Z) (v : GameData) : res bytes := run_writer (GameData_write_m version v).

(** gamedata.rs:1537-1565 *)
Definition GameData_set_code (script : rstring) (v : GameData) : GameData :=
  set_gd_tail (set_gt_code (swe_new script) (gd_tail v)) v.

(** Enumerations and their integer and JSON encodings.  Generated by tools/gen_enums.py from the Rust sources.

    [X_of_u32] models [From<u32> for X] ([panic!] is [Panic]), [X_to_u32] models [From<&X> for u32].
    [X_to_json] models [Serialize], [X_of_json] models [Deserialize], on the JSON scalars below. *)
From Verif Require Import Base.

(** A JSON value as seen by the enumeration deserializers: a string, a number that is a u64, any other number,
    anything else. *)
Inductive jscalar : Type := JStr (s : string) | JU64 (n : Z) | JNum | JOther.

(** [str::to_lowercase] on ASCII *)
Fixpoint ascii_lower (s : string) : string :=
  match s with
  | EmptyString => EmptyString
  | String c s' =>
      let n := Ascii.nat_of_ascii c in
      String (if (65 <=? n)%nat && (n <=? 90)%nat then Ascii.ascii_of_nat (n + 32) else c) (ascii_lower s')
  end.

(** gameitem/decal.rs:14-17 *)
Inductive DecalType : Type := DecalType_Text | DecalType_Image.
(** gameitem/decal.rs:36-44 *)
Definition DecalType_of_u32 (x : u32) : res DecalType :=
  let z := w32_to_Z x in
  if z =? 0 then Ok DecalType_Text else
  if z =? 1 then Ok DecalType_Image else
  Panic.
(** gameitem/decal.rs:27-34 *)
Definition DecalType_to_u32 (e : DecalType) : u32 :=
  match e with
  | DecalType_Text => Z_to_w32 0
  | DecalType_Image => Z_to_w32 1
  end.
(** gameitem/decal.rs:47-58 *)
Definition DecalType_to_json (e : DecalType) : jscalar :=
  match e with
  | DecalType_Text => JStr "text"
  | DecalType_Image => JStr "image"
  end.
(** gameitem/decal.rs:62-91 ([as_u64().unwrap()] panics on other numbers) *)
Definition DecalType_of_json (j : jscalar) : res DecalType :=
  match j with
  | JStr s0 => let s := s0 in
      if (s =? "text")%string then Ok DecalType_Text else
      if (s =? "image")%string then Ok DecalType_Image else
      Err
  | JU64 z =>
      if z =? 0 then Ok DecalType_Text else
      if z =? 1 then Ok DecalType_Image else
      Err
  | JNum => Panic
  | _ => Err
  end.

(** gameitem/decal.rs:21-25 *)
Inductive SizingType : Type := SizingType_AutoSize | SizingType_AutoWidth | SizingType_ManualSize.
(** gameitem/decal.rs:103-112 *)
Definition SizingType_of_u32 (x : u32) : res SizingType :=
  let z := w32_to_Z x in
  if z =? 0 then Ok SizingType_AutoSize else
  if z =? 1 then Ok SizingType_AutoWidth else
  if z =? 2 then Ok SizingType_ManualSize else
  Panic.
(** gameitem/decal.rs:93-101 *)
Definition SizingType_to_u32 (e : SizingType) : u32 :=
  match e with
  | SizingType_AutoSize => Z_to_w32 0
  | SizingType_AutoWidth => Z_to_w32 1
  | SizingType_ManualSize => Z_to_w32 2
  end.
(** gameitem/decal.rs:115-127 *)
Definition SizingType_to_json (e : SizingType) : jscalar :=
  match e with
  | SizingType_AutoSize => JStr "auto_size"
  | SizingType_AutoWidth => JStr "auto_width"
  | SizingType_ManualSize => JStr "manual_size"
  end.
(** gameitem/decal.rs:131-162 ([as_u64().unwrap()] panics on other numbers) *)
Definition SizingType_of_json (j : jscalar) : res SizingType :=
  match j with
  | JStr s0 => let s := s0 in
      if (s =? "auto_size")%string then Ok SizingType_AutoSize else
      if (s =? "auto_width")%string then Ok SizingType_AutoWidth else
      if (s =? "manual_size")%string then Ok SizingType_ManualSize else
      Err
  | JU64 z =>
      if z =? 0 then Ok SizingType_AutoSize else
      if z =? 1 then Ok SizingType_AutoWidth else
      if z =? 2 then Ok SizingType_ManualSize else
      Err
  | JNum => Panic
  | _ => Err
  end.

(** gameitem/flasher.rs:20-32 *)
Inductive Filter : Type := Filter_None | Filter_Additive | Filter_Overlay | Filter_Multiply | Filter_Screen.
(** gameitem/flasher.rs:34-45 *)
Definition Filter_of_u32 (x : u32) : res Filter :=
  let z := w32_to_Z x in
  if z =? 0 then Ok Filter_None else
  if z =? 1 then Ok Filter_Additive else
  if z =? 2 then Ok Filter_Overlay else
  if z =? 3 then Ok Filter_Multiply else
  if z =? 4 then Ok Filter_Screen else
  Panic.
(** gameitem/flasher.rs:47-57 *)
Definition Filter_to_u32 (e : Filter) : u32 :=
  match e with
  | Filter_None => Z_to_w32 0
  | Filter_Additive => Z_to_w32 1
  | Filter_Overlay => Z_to_w32 2
  | Filter_Multiply => Z_to_w32 3
  | Filter_Screen => Z_to_w32 4
  end.
(** gameitem/flasher.rs:60-74 *)
Definition Filter_to_json (e : Filter) : jscalar :=
  match e with
  | Filter_None => JStr "none"
  | Filter_Additive => JStr "additive"
  | Filter_Overlay => JStr "overlay"
  | Filter_Multiply => JStr "multiply"
  | Filter_Screen => JStr "screen"
  end.
(** gameitem/flasher.rs:78-113 ([as_u64().unwrap()] panics on other numbers) *)
Definition Filter_of_json (j : jscalar) : res Filter :=
  match j with
  | JStr s0 => let s := s0 in
      if (s =? "none")%string then Ok Filter_None else
      if (s =? "additive")%string then Ok Filter_Additive else
      if (s =? "overlay")%string then Ok Filter_Overlay else
      if (s =? "multiply")%string then Ok Filter_Multiply else
      if (s =? "screen")%string then Ok Filter_Screen else
      Err
  | JU64 z =>
      if z =? 0 then Ok Filter_None else
      if z =? 1 then Ok Filter_Additive else
      if z =? 2 then Ok Filter_Overlay else
      if z =? 3 then Ok Filter_Multiply else
      if z =? 4 then Ok Filter_Screen else
      Err
  | JNum => Panic
  | _ => Err
  end.

(** gameitem/flasher.rs:126-138 *)
Inductive RenderMode : Type := RenderMode_Flasher | RenderMode_DMD | RenderMode_Display | RenderMode_AlphaSeg | RenderMode_ExtRender.
(** gameitem/flasher.rs:140-151 *)
Definition RenderMode_of_u32 (x : u32) : res RenderMode :=
  let z := w32_to_Z x in
  if z =? 0 then Ok RenderMode_Flasher else
  if z =? 1 then Ok RenderMode_DMD else
  if z =? 2 then Ok RenderMode_Display else
  if z =? 3 then Ok RenderMode_AlphaSeg else
  if z =? 4 then Ok RenderMode_ExtRender else
  Panic.
(** gameitem/flasher.rs:153-163 *)
Definition RenderMode_to_u32 (e : RenderMode) : u32 :=
  match e with
  | RenderMode_Flasher => Z_to_w32 0
  | RenderMode_DMD => Z_to_w32 1
  | RenderMode_Display => Z_to_w32 2
  | RenderMode_AlphaSeg => Z_to_w32 3
  | RenderMode_ExtRender => Z_to_w32 4
  end.
(** gameitem/flasher.rs:165-179 *)
Definition RenderMode_to_json (e : RenderMode) : jscalar :=
  match e with
  | RenderMode_Flasher => JStr "flasher"
  | RenderMode_DMD => JStr "dmd"
  | RenderMode_Display => JStr "display"
  | RenderMode_AlphaSeg => JStr "alpha_seg"
  | RenderMode_ExtRender => JStr "ext_render"
  end.
(** gameitem/flasher.rs:181-216 ([as_u64().unwrap()] panics on other numbers) *)
Definition RenderMode_of_json (j : jscalar) : res RenderMode :=
  match j with
  | JStr s0 => let s := s0 in
      if (s =? "flasher")%string then Ok RenderMode_Flasher else
      if (s =? "dmd")%string then Ok RenderMode_DMD else
      if (s =? "display")%string then Ok RenderMode_Display else
      if (s =? "alpha_seg")%string then Ok RenderMode_AlphaSeg else
      if (s =? "ext_render")%string then Ok RenderMode_ExtRender else
      Err
  | JU64 z =>
      if z =? 0 then Ok RenderMode_Flasher else
      if z =? 1 then Ok RenderMode_DMD else
      if z =? 2 then Ok RenderMode_Display else
      if z =? 3 then Ok RenderMode_AlphaSeg else
      if z =? 4 then Ok RenderMode_ExtRender else
      Err
  | JNum => Panic
  | _ => Err
  end.

(** gameitem/flasher.rs:223-234 *)
Inductive DmdStyle : Type := DmdStyle_Legacy | DmdStyle_Plasma | DmdStyle_RedLED | DmdStyle_GreenLED | DmdStyle_YellowLED | DmdStyle_GenericPlasma | DmdStyle_GenericLED.
(** gameitem/flasher.rs:236-249 *)
Definition DmdStyle_of_u32 (x : u32) : res DmdStyle :=
  let z := w32_to_Z x in
  if z =? 0 then Ok DmdStyle_Legacy else
  if z =? 1 then Ok DmdStyle_Plasma else
  if z =? 2 then Ok DmdStyle_RedLED else
  if z =? 3 then Ok DmdStyle_GreenLED else
  if z =? 4 then Ok DmdStyle_YellowLED else
  if z =? 5 then Ok DmdStyle_GenericPlasma else
  if z =? 6 then Ok DmdStyle_GenericLED else
  Panic.
(** gameitem/flasher.rs:251-255 *)
Definition DmdStyle_to_u32 (e : DmdStyle) : u32 :=
  match e with
  | DmdStyle_Legacy => Z_to_w32 0
  | DmdStyle_Plasma => Z_to_w32 1
  | DmdStyle_RedLED => Z_to_w32 2
  | DmdStyle_GreenLED => Z_to_w32 3
  | DmdStyle_YellowLED => Z_to_w32 4
  | DmdStyle_GenericPlasma => Z_to_w32 5
  | DmdStyle_GenericLED => Z_to_w32 6
  end.

(** gameitem/flasher.rs:262-267 *)
Inductive DisplayStyle : Type := DisplayStyle_Pixelated | DisplayStyle_Smoothed | DisplayStyle_CRT.
(** gameitem/flasher.rs:269-278 *)
Definition DisplayStyle_of_u32 (x : u32) : res DisplayStyle :=
  let z := w32_to_Z x in
  if z =? 0 then Ok DisplayStyle_Pixelated else
  if z =? 1 then Ok DisplayStyle_Smoothed else
  if z =? 2 then Ok DisplayStyle_CRT else
  Panic.
(** gameitem/flasher.rs:280-284 *)
Definition DisplayStyle_to_u32 (e : DisplayStyle) : u32 :=
  match e with
  | DisplayStyle_Pixelated => Z_to_w32 0
  | DisplayStyle_Smoothed => Z_to_w32 1
  | DisplayStyle_CRT => Z_to_w32 2
  end.

(** gameitem/flasher.rs:292-305 *)
Inductive SegStyle : Type := SegStyle_Plasma | SegStyle_BlueVFD | SegStyle_GreenVFD | SegStyle_RedLED | SegStyle_GreenLED | SegStyle_YellowLED | SegStyle_GenericPlasma | SegStyle_GenericLED.
(** gameitem/flasher.rs:307-321 *)
Definition SegStyle_of_u32 (x : u32) : res SegStyle :=
  let z := w32_to_Z x in
  if z =? 0 then Ok SegStyle_Plasma else
  if z =? 1 then Ok SegStyle_BlueVFD else
  if z =? 2 then Ok SegStyle_GreenVFD else
  if z =? 3 then Ok SegStyle_RedLED else
  if z =? 4 then Ok SegStyle_GreenLED else
  if z =? 5 then Ok SegStyle_YellowLED else
  if z =? 6 then Ok SegStyle_GenericPlasma else
  if z =? 7 then Ok SegStyle_GenericLED else
  Panic.
(** gameitem/flasher.rs:323-327 *)
Definition SegStyle_to_u32 (e : SegStyle) : u32 :=
  match e with
  | SegStyle_Plasma => Z_to_w32 0
  | SegStyle_BlueVFD => Z_to_w32 1
  | SegStyle_GreenVFD => Z_to_w32 2
  | SegStyle_RedLED => Z_to_w32 3
  | SegStyle_GreenLED => Z_to_w32 4
  | SegStyle_YellowLED => Z_to_w32 5
  | SegStyle_GenericPlasma => Z_to_w32 6
  | SegStyle_GenericLED => Z_to_w32 7
  end.

(** gameitem/flasher.rs:335-342 *)
Inductive SegFamily : Type := SegFamily_Generic | SegFamily_Gottlieb | SegFamily_Williams | SegFamily_Bally | SegFamily_Atari.
(** gameitem/flasher.rs:344-355 *)
Definition SegFamily_of_u32 (x : u32) : res SegFamily :=
  let z := w32_to_Z x in
  if z =? 0 then Ok SegFamily_Generic else
  if z =? 1 then Ok SegFamily_Gottlieb else
  if z =? 2 then Ok SegFamily_Williams else
  if z =? 3 then Ok SegFamily_Bally else
  if z =? 4 then Ok SegFamily_Atari else
  Panic.
(** gameitem/flasher.rs:357-361 *)
Definition SegFamily_to_u32 (e : SegFamily) : u32 :=
  match e with
  | SegFamily_Generic => Z_to_w32 0
  | SegFamily_Gottlieb => Z_to_w32 1
  | SegFamily_Williams => Z_to_w32 2
  | SegFamily_Bally => Z_to_w32 3
  | SegFamily_Atari => Z_to_w32 4
  end.

(** gameitem/gate.rs:10-28 *)
Inductive GateType : Type := GateType_WireW | GateType_WireRectangle | GateType_Plate | GateType_LongPlate | GateType_Unknown (n : u32).
(** gameitem/gate.rs:40-50 *)
Definition GateType_of_u32 (x : u32) : res GateType :=
  let z := w32_to_Z x in
  if z =? 1 then Ok GateType_WireW else
  if z =? 2 then Ok GateType_WireRectangle else
  if z =? 3 then Ok GateType_Plate else
  if z =? 4 then Ok GateType_LongPlate else
  Ok (GateType_Unknown x).
(** gameitem/gate.rs:52-62 *)
Definition GateType_to_u32 (e : GateType) : u32 :=
  match e with
  | GateType_WireW => Z_to_w32 1
  | GateType_WireRectangle => Z_to_w32 2
  | GateType_Plate => Z_to_w32 3
  | GateType_LongPlate => Z_to_w32 4
  | GateType_Unknown n => n
  end.
(** The values that [GateType_of_u32] produces: [Unknown] is only used for other codes. *)
Definition GateType_ok (e : GateType) : bool :=
  match e with GateType_Unknown n => negb (existsb (Z.eqb (w32_to_Z n)) [1; 2; 3; 4]) | _ => true end.
(** gameitem/gate.rs:65-78 *)
Definition GateType_to_json (e : GateType) : jscalar :=
  match e with
  | GateType_WireW => JStr "wire_w"
  | GateType_WireRectangle => JStr "wire_rectangle"
  | GateType_Plate => JStr "plate"
  | GateType_LongPlate => JStr "long_plate"
  | GateType_Unknown n => JU64 (w32_to_Z n)
  end.
(** gameitem/gate.rs:81-127 *)
Definition GateType_of_json (j : jscalar) : res GateType :=
  match j with
  | JStr s0 => let s := s0 in
      if (s =? "wire_w")%string then Ok GateType_WireW else
      if (s =? "wire_rectangle")%string then Ok GateType_WireRectangle else
      if (s =? "plate")%string then Ok GateType_Plate else
      if (s =? "long_plate")%string then Ok GateType_LongPlate else
      Err
  | JU64 z =>
      if z <? 4294967296 then GateType_of_u32 (Z_to_w32 z) else Err
  | _ => Err
  end.

(** gameitem/hittarget.rs:11-21 *)
Inductive TargetType : Type := TargetType_DropTargetBeveled | TargetType_DropTargetSimple | TargetType_HitTargetRound | TargetType_HitTargetRectangle | TargetType_HitFatTargetRectangle | TargetType_HitFatTargetSquare | TargetType_DropTargetFlatSimple | TargetType_HitFatTargetSlim | TargetType_HitTargetSlim.
(** gameitem/hittarget.rs:23-38 *)
Definition TargetType_of_u32 (x : u32) : res TargetType :=
  let z := w32_to_Z x in
  if z =? 1 then Ok TargetType_DropTargetBeveled else
  if z =? 2 then Ok TargetType_DropTargetSimple else
  if z =? 3 then Ok TargetType_HitTargetRound else
  if z =? 4 then Ok TargetType_HitTargetRectangle else
  if z =? 5 then Ok TargetType_HitFatTargetRectangle else
  if z =? 6 then Ok TargetType_HitFatTargetSquare else
  if z =? 7 then Ok TargetType_DropTargetFlatSimple else
  if z =? 8 then Ok TargetType_HitFatTargetSlim else
  if z =? 9 then Ok TargetType_HitTargetSlim else
  Panic.
(** gameitem/hittarget.rs:40-54 *)
Definition TargetType_to_u32 (e : TargetType) : u32 :=
  match e with
  | TargetType_DropTargetBeveled => Z_to_w32 1
  | TargetType_DropTargetSimple => Z_to_w32 2
  | TargetType_HitTargetRound => Z_to_w32 3
  | TargetType_HitTargetRectangle => Z_to_w32 4
  | TargetType_HitFatTargetRectangle => Z_to_w32 5
  | TargetType_HitFatTargetSquare => Z_to_w32 6
  | TargetType_DropTargetFlatSimple => Z_to_w32 7
  | TargetType_HitFatTargetSlim => Z_to_w32 8
  | TargetType_HitTargetSlim => Z_to_w32 9
  end.
(** gameitem/hittarget.rs:57-76 *)
Definition TargetType_to_json (e : TargetType) : jscalar :=
  match e with
  | TargetType_DropTargetBeveled => JStr "drop_target_beveled"
  | TargetType_DropTargetSimple => JStr "drop_target_simple"
  | TargetType_HitTargetRound => JStr "hit_target_round"
  | TargetType_HitTargetRectangle => JStr "hit_target_rectangle"
  | TargetType_HitFatTargetRectangle => JStr "hit_fat_target_rectangle"
  | TargetType_HitFatTargetSquare => JStr "hit_fat_target_square"
  | TargetType_DropTargetFlatSimple => JStr "drop_target_flat_simple"
  | TargetType_HitFatTargetSlim => JStr "hit_fat_target_slim"
  | TargetType_HitTargetSlim => JStr "hit_target_slim"
  end.
(** gameitem/hittarget.rs:80-149 *)
Definition TargetType_of_json (j : jscalar) : res TargetType :=
  match j with
  | JStr s0 => let s := s0 in
      if (s =? "drop_target_beveled")%string then Ok TargetType_DropTargetBeveled else
      if (s =? "drop_target_simple")%string then Ok TargetType_DropTargetSimple else
      if (s =? "hit_target_round")%string then Ok TargetType_HitTargetRound else
      if (s =? "hit_target_rectangle")%string then Ok TargetType_HitTargetRectangle else
      if (s =? "hit_fat_target_rectangle")%string then Ok TargetType_HitFatTargetRectangle else
      if (s =? "hit_fat_target_square")%string then Ok TargetType_HitFatTargetSquare else
      if (s =? "drop_target_flat_simple")%string then Ok TargetType_DropTargetFlatSimple else
      if (s =? "hit_fat_target_slim")%string then Ok TargetType_HitFatTargetSlim else
      if (s =? "hit_target_slim")%string then Ok TargetType_HitTargetSlim else
      Err
  | JU64 z =>
      if z =? 1 then Ok TargetType_DropTargetBeveled else
      if z =? 2 then Ok TargetType_DropTargetSimple else
      if z =? 3 then Ok TargetType_HitTargetRound else
      if z =? 4 then Ok TargetType_HitTargetRectangle else
      if z =? 5 then Ok TargetType_HitFatTargetRectangle else
      if z =? 6 then Ok TargetType_HitFatTargetSquare else
      if z =? 7 then Ok TargetType_DropTargetFlatSimple else
      if z =? 8 then Ok TargetType_HitFatTargetSlim else
      if z =? 9 then Ok TargetType_HitTargetSlim else
      Err
  | _ => Err
  end.

(** gameitem/kicker.rs:10-18 *)
Inductive KickerType : Type := KickerType_Invisible | KickerType_Hole | KickerType_Cup | KickerType_HoleSimple | KickerType_Williams | KickerType_Gottlieb | KickerType_Cup2.
(** gameitem/kicker.rs:20-33 *)
Definition KickerType_of_u32 (x : u32) : res KickerType :=
  let z := w32_to_Z x in
  if z =? 0 then Ok KickerType_Invisible else
  if z =? 1 then Ok KickerType_Hole else
  if z =? 2 then Ok KickerType_Cup else
  if z =? 3 then Ok KickerType_HoleSimple else
  if z =? 4 then Ok KickerType_Williams else
  if z =? 5 then Ok KickerType_Gottlieb else
  if z =? 6 then Ok KickerType_Cup2 else
  Panic.
(** gameitem/kicker.rs:35-47 *)
Definition KickerType_to_u32 (e : KickerType) : u32 :=
  match e with
  | KickerType_Invisible => Z_to_w32 0
  | KickerType_Hole => Z_to_w32 1
  | KickerType_Cup => Z_to_w32 2
  | KickerType_HoleSimple => Z_to_w32 3
  | KickerType_Williams => Z_to_w32 4
  | KickerType_Gottlieb => Z_to_w32 5
  | KickerType_Cup2 => Z_to_w32 6
  end.
(** gameitem/kicker.rs:50-66 *)
Definition KickerType_to_json (e : KickerType) : jscalar :=
  match e with
  | KickerType_Invisible => JStr "invisible"
  | KickerType_Hole => JStr "hole"
  | KickerType_Cup => JStr "cup"
  | KickerType_HoleSimple => JStr "hole_simple"
  | KickerType_Williams => JStr "williams"
  | KickerType_Gottlieb => JStr "gottlieb"
  | KickerType_Cup2 => JStr "cup2"
  end.
(** gameitem/kicker.rs:70-133 *)
Definition KickerType_of_json (j : jscalar) : res KickerType :=
  match j with
  | JStr s0 => let s := s0 in
      if (s =? "invisible")%string then Ok KickerType_Invisible else
      if (s =? "hole")%string then Ok KickerType_Hole else
      if (s =? "cup")%string then Ok KickerType_Cup else
      if (s =? "hole_simple")%string then Ok KickerType_HoleSimple else
      if (s =? "williams")%string then Ok KickerType_Williams else
      if (s =? "gottlieb")%string then Ok KickerType_Gottlieb else
      if (s =? "cup2")%string then Ok KickerType_Cup2 else
      Err
  | JU64 z =>
      if z =? 0 then Ok KickerType_Invisible else
      if z =? 1 then Ok KickerType_Hole else
      if z =? 2 then Ok KickerType_Cup else
      if z =? 3 then Ok KickerType_HoleSimple else
      if z =? 4 then Ok KickerType_Williams else
      if z =? 5 then Ok KickerType_Gottlieb else
      if z =? 6 then Ok KickerType_Cup2 else
      Err
  | _ => Err
  end.

(** gameitem/light.rs:90-96 *)
Inductive ShadowMode : Type := ShadowMode_None | ShadowMode_RaytracedBallShadows.
(** gameitem/light.rs:98-106 *)
Definition ShadowMode_of_u32 (x : u32) : res ShadowMode :=
  let z := w32_to_Z x in
  if z =? 0 then Ok ShadowMode_None else
  if z =? 1 then Ok ShadowMode_RaytracedBallShadows else
  Panic.
(** gameitem/light.rs:108-115 *)
Definition ShadowMode_to_u32 (e : ShadowMode) : u32 :=
  match e with
  | ShadowMode_None => Z_to_w32 0
  | ShadowMode_RaytracedBallShadows => Z_to_w32 1
  end.
(** gameitem/light.rs:118-129 *)
Definition ShadowMode_to_json (e : ShadowMode) : jscalar :=
  match e with
  | ShadowMode_None => JStr "none"
  | ShadowMode_RaytracedBallShadows => JStr "raytraced_ball_shadows"
  end.
(** gameitem/light.rs:133-178 *)
Definition ShadowMode_of_json (j : jscalar) : res ShadowMode :=
  match j with
  | JStr s0 => let s := s0 in
      if (s =? "none")%string then Ok ShadowMode_None else
      if (s =? "raytraced_ball_shadows")%string then Ok ShadowMode_RaytracedBallShadows else
      Err
  | JU64 z =>
      if z =? 0 then Ok ShadowMode_None else
      if z =? 1 then Ok ShadowMode_RaytracedBallShadows else
      Err
  | _ => Err
  end.

(** gameitem/light.rs:185-206 *)
Inductive Fader : Type := Fader_None | Fader_Linear | Fader_Incandescent.
(** gameitem/light.rs:208-217 *)
Definition Fader_of_u32 (x : u32) : res Fader :=
  let z := w32_to_Z x in
  if z =? 0 then Ok Fader_None else
  if z =? 1 then Ok Fader_Linear else
  if z =? 2 then Ok Fader_Incandescent else
  Panic.
(** gameitem/light.rs:219-227 *)
Definition Fader_to_u32 (e : Fader) : u32 :=
  match e with
  | Fader_None => Z_to_w32 0
  | Fader_Linear => Z_to_w32 1
  | Fader_Incandescent => Z_to_w32 2
  end.
(** gameitem/light.rs:230-242 *)
Definition Fader_to_json (e : Fader) : jscalar :=
  match e with
  | Fader_None => JStr "none"
  | Fader_Linear => JStr "linear"
  | Fader_Incandescent => JStr "incandescent"
  end.
(** gameitem/light.rs:246-293 *)
Definition Fader_of_json (j : jscalar) : res Fader :=
  match j with
  | JStr s0 => let s := s0 in
      if (s =? "none")%string then Ok Fader_None else
      if (s =? "linear")%string then Ok Fader_Linear else
      if (s =? "incandescent")%string then Ok Fader_Incandescent else
      Err
  | JU64 z =>
      if z =? 0 then Ok Fader_None else
      if z =? 1 then Ok Fader_Linear else
      if z =? 2 then Ok Fader_Incandescent else
      Err
  | _ => Err
  end.

(** gameitem/partgroup.rs:10-19 *)
Inductive VisibilityMask : Type := VisibilityMask_Playfield | VisibilityMask_Scoreview | VisibilityMask_Backglass | VisibilityMask_Topper | VisibilityMask_ApronLeft | VisibilityMask_ApronRight | VisibilityMask_MixedReality | VisibilityMask_VirtualReality.
(** gameitem/partgroup.rs:21-35 *)
Definition VisibilityMask_of_u32 (x : u32) : res VisibilityMask :=
  let z := w32_to_Z x in
  if z =? 1 then Ok VisibilityMask_Playfield else
  if z =? 2 then Ok VisibilityMask_Scoreview else
  if z =? 4 then Ok VisibilityMask_Backglass else
  if z =? 8 then Ok VisibilityMask_Topper else
  if z =? 16 then Ok VisibilityMask_ApronLeft else
  if z =? 32 then Ok VisibilityMask_ApronRight else
  if z =? 64 then Ok VisibilityMask_MixedReality else
  if z =? 128 then Ok VisibilityMask_VirtualReality else
  Panic.
(** gameitem/partgroup.rs:37-50 *)
Definition VisibilityMask_to_u32 (e : VisibilityMask) : u32 :=
  match e with
  | VisibilityMask_Playfield => Z_to_w32 1
  | VisibilityMask_Scoreview => Z_to_w32 2
  | VisibilityMask_Backglass => Z_to_w32 4
  | VisibilityMask_Topper => Z_to_w32 8
  | VisibilityMask_ApronLeft => Z_to_w32 16
  | VisibilityMask_ApronRight => Z_to_w32 32
  | VisibilityMask_MixedReality => Z_to_w32 64
  | VisibilityMask_VirtualReality => Z_to_w32 128
  end.

(** gameitem/partgroup.rs:54-65 *)
Inductive SpaceReference : Type := SpaceReference_Inherit | SpaceReference_Room | SpaceReference_CabinetFeet | SpaceReference_Cabinet | SpaceReference_Playfield.
(** gameitem/partgroup.rs:67-78 *)
Definition SpaceReference_of_u32 (x : u32) : res SpaceReference :=
  let z := w32_to_Z x in
  if z =? 0 then Ok SpaceReference_Playfield else
  if z =? 1 then Ok SpaceReference_Cabinet else
  if z =? 2 then Ok SpaceReference_CabinetFeet else
  if z =? 3 then Ok SpaceReference_Room else
  if z =? 4 then Ok SpaceReference_Inherit else
  Panic.
(** gameitem/partgroup.rs:80-90 *)
Definition SpaceReference_to_u32 (e : SpaceReference) : u32 :=
  match e with
  | SpaceReference_Playfield => Z_to_w32 0
  | SpaceReference_Cabinet => Z_to_w32 1
  | SpaceReference_CabinetFeet => Z_to_w32 2
  | SpaceReference_Room => Z_to_w32 3
  | SpaceReference_Inherit => Z_to_w32 4
  end.
(** gameitem/partgroup.rs:92-106 *)
Definition SpaceReference_to_json (e : SpaceReference) : jscalar :=
  match e with
  | SpaceReference_Inherit => JStr "inherit"
  | SpaceReference_Room => JStr "room"
  | SpaceReference_CabinetFeet => JStr "cabinet_feet"
  | SpaceReference_Cabinet => JStr "cabinet"
  | SpaceReference_Playfield => JStr "playfield"
  end.
(** gameitem/partgroup.rs:108-125 *)
Definition SpaceReference_of_json (j : jscalar) : res SpaceReference :=
  match j with
  | JStr s0 => let s := s0 in
      if (s =? "inherit")%string then Ok SpaceReference_Inherit else
      if (s =? "room")%string then Ok SpaceReference_Room else
      if (s =? "cabinet_feet")%string then Ok SpaceReference_CabinetFeet else
      if (s =? "cabinet")%string then Ok SpaceReference_Cabinet else
      if (s =? "playfield")%string then Ok SpaceReference_Playfield else
      Err
  | _ => Err
  end.

(** gameitem/plunger.rs:10-17 *)
Inductive PlungerType : Type := PlungerType_Unknown | PlungerType_Modern | PlungerType_Flat | PlungerType_Custom.
(** gameitem/plunger.rs:19-29 *)
Definition PlungerType_of_u32 (x : u32) : res PlungerType :=
  let z := w32_to_Z x in
  if z =? 0 then Ok PlungerType_Unknown else
  if z =? 1 then Ok PlungerType_Modern else
  if z =? 2 then Ok PlungerType_Flat else
  if z =? 3 then Ok PlungerType_Custom else
  Panic.
(** gameitem/plunger.rs:31-40 *)
Definition PlungerType_to_u32 (e : PlungerType) : u32 :=
  match e with
  | PlungerType_Unknown => Z_to_w32 0
  | PlungerType_Modern => Z_to_w32 1
  | PlungerType_Flat => Z_to_w32 2
  | PlungerType_Custom => Z_to_w32 3
  end.
(** gameitem/plunger.rs:43-55 *)
Definition PlungerType_to_json (e : PlungerType) : jscalar :=
  match e with
  | PlungerType_Unknown => JStr "unknown"
  | PlungerType_Modern => JStr "modern"
  | PlungerType_Flat => JStr "flat"
  | PlungerType_Custom => JStr "custom"
  end.
(** gameitem/plunger.rs:59-109 *)
Definition PlungerType_of_json (j : jscalar) : res PlungerType :=
  match j with
  | JStr s0 => let s := s0 in
      if (s =? "unknown")%string then Ok PlungerType_Unknown else
      if (s =? "modern")%string then Ok PlungerType_Modern else
      if (s =? "flat")%string then Ok PlungerType_Flat else
      if (s =? "custom")%string then Ok PlungerType_Custom else
      Err
  | JU64 z =>
      if z =? 0 then Ok PlungerType_Unknown else
      if z =? 1 then Ok PlungerType_Modern else
      if z =? 2 then Ok PlungerType_Flat else
      if z =? 3 then Ok PlungerType_Custom else
      Err
  | _ => Err
  end.

(** gameitem/ramp.rs:11-18 *)
Inductive RampType : Type := RampType_Flat | RampType_FourWire | RampType_TwoWire | RampType_ThreeWireLeft | RampType_ThreeWireRight | RampType_OneWire.
(** gameitem/ramp.rs:20-32 *)
Definition RampType_of_u32 (x : u32) : res RampType :=
  let z := w32_to_Z x in
  if z =? 0 then Ok RampType_Flat else
  if z =? 1 then Ok RampType_FourWire else
  if z =? 2 then Ok RampType_TwoWire else
  if z =? 3 then Ok RampType_ThreeWireLeft else
  if z =? 4 then Ok RampType_ThreeWireRight else
  if z =? 5 then Ok RampType_OneWire else
  Panic.
(** gameitem/ramp.rs:34-45 *)
Definition RampType_to_u32 (e : RampType) : u32 :=
  match e with
  | RampType_Flat => Z_to_w32 0
  | RampType_FourWire => Z_to_w32 1
  | RampType_TwoWire => Z_to_w32 2
  | RampType_ThreeWireLeft => Z_to_w32 3
  | RampType_ThreeWireRight => Z_to_w32 4
  | RampType_OneWire => Z_to_w32 5
  end.
(** gameitem/ramp.rs:48-62 *)
Definition RampType_to_json (e : RampType) : jscalar :=
  match e with
  | RampType_Flat => JStr "flat"
  | RampType_FourWire => JStr "four_wire"
  | RampType_TwoWire => JStr "two_wire"
  | RampType_ThreeWireLeft => JStr "three_wire_left"
  | RampType_ThreeWireRight => JStr "three_wire_right"
  | RampType_OneWire => JStr "one_wire"
  end.
(** gameitem/ramp.rs:66-126 *)
Definition RampType_of_json (j : jscalar) : res RampType :=
  match j with
  | JStr s0 => let s := s0 in
      if (s =? "flat")%string then Ok RampType_Flat else
      if (s =? "four_wire")%string then Ok RampType_FourWire else
      if (s =? "two_wire")%string then Ok RampType_TwoWire else
      if (s =? "three_wire_left")%string then Ok RampType_ThreeWireLeft else
      if (s =? "three_wire_right")%string then Ok RampType_ThreeWireRight else
      if (s =? "one_wire")%string then Ok RampType_OneWire else
      Err
  | JU64 z =>
      if z =? 0 then Ok RampType_Flat else
      if z =? 1 then Ok RampType_FourWire else
      if z =? 2 then Ok RampType_TwoWire else
      if z =? 3 then Ok RampType_ThreeWireLeft else
      if z =? 4 then Ok RampType_ThreeWireRight else
      if z =? 5 then Ok RampType_OneWire else
      Err
  | _ => Err
  end.

(** gameitem/ramp_image_alignment.rs:5-11 *)
Inductive RampImageAlignment : Type := RampImageAlignment_World | RampImageAlignment_Wrap | RampImageAlignment_Unknown.
(** gameitem/ramp_image_alignment.rs:13-22 *)
Definition RampImageAlignment_of_u32 (x : u32) : res RampImageAlignment :=
  let z := w32_to_Z x in
  if z =? 0 then Ok RampImageAlignment_World else
  if z =? 1 then Ok RampImageAlignment_Wrap else
  if z =? 2 then Ok RampImageAlignment_Unknown else
  Panic.
(** gameitem/ramp_image_alignment.rs:24-32 *)
Definition RampImageAlignment_to_u32 (e : RampImageAlignment) : u32 :=
  match e with
  | RampImageAlignment_World => Z_to_w32 0
  | RampImageAlignment_Wrap => Z_to_w32 1
  | RampImageAlignment_Unknown => Z_to_w32 2
  end.
(** gameitem/ramp_image_alignment.rs:35-46 *)
Definition RampImageAlignment_to_json (e : RampImageAlignment) : jscalar :=
  match e with
  | RampImageAlignment_World => JStr "world"
  | RampImageAlignment_Wrap => JStr "wrap"
  | RampImageAlignment_Unknown => JStr "unknown"
  end.
(** gameitem/ramp_image_alignment.rs:50-94 *)
Definition RampImageAlignment_of_json (j : jscalar) : res RampImageAlignment :=
  match j with
  | JStr s0 => let s := s0 in
      if (s =? "world")%string then Ok RampImageAlignment_World else
      if (s =? "wrap")%string then Ok RampImageAlignment_Wrap else
      if (s =? "unknown")%string then Ok RampImageAlignment_Unknown else
      Err
  | JU64 z =>
      if z =? 0 then Ok RampImageAlignment_World else
      if z =? 1 then Ok RampImageAlignment_Wrap else
      if z =? 2 then Ok RampImageAlignment_Unknown else
      Err
  | _ => Err
  end.

(** gameitem/textbox.rs:15-20 *)
Inductive TextAlignment : Type := TextAlignment_Left | TextAlignment_Center | TextAlignment_Right.
(** gameitem/textbox.rs:22-31 *)
Definition TextAlignment_of_u32 (x : u32) : res TextAlignment :=
  let z := w32_to_Z x in
  if z =? 0 then Ok TextAlignment_Left else
  if z =? 1 then Ok TextAlignment_Center else
  if z =? 2 then Ok TextAlignment_Right else
  Panic.
(** gameitem/textbox.rs:33-41 *)
Definition TextAlignment_to_u32 (e : TextAlignment) : u32 :=
  match e with
  | TextAlignment_Left => Z_to_w32 0
  | TextAlignment_Center => Z_to_w32 1
  | TextAlignment_Right => Z_to_w32 2
  end.
(** gameitem/textbox.rs:44-55 *)
Definition TextAlignment_to_json (e : TextAlignment) : jscalar :=
  match e with
  | TextAlignment_Left => JStr "left"
  | TextAlignment_Center => JStr "center"
  | TextAlignment_Right => JStr "right"
  end.
(** gameitem/textbox.rs:59-106 *)
Definition TextAlignment_of_json (j : jscalar) : res TextAlignment :=
  match j with
  | JStr s0 => let s := s0 in
      if (s =? "left")%string then Ok TextAlignment_Left else
      if (s =? "center")%string then Ok TextAlignment_Center else
      if (s =? "right")%string then Ok TextAlignment_Right else
      Err
  | JU64 z =>
      if z =? 0 then Ok TextAlignment_Left else
      if z =? 1 then Ok TextAlignment_Center else
      if z =? 2 then Ok TextAlignment_Right else
      Err
  | _ => Err
  end.

(** gameitem/trigger.rs:11-29 *)
Inductive TriggerShape : Type := TriggerShape_None | TriggerShape_WireA | TriggerShape_Star | TriggerShape_WireB | TriggerShape_Button | TriggerShape_WireC | TriggerShape_WireD | TriggerShape_Inder.
(** gameitem/trigger.rs:31-45 *)
Definition TriggerShape_of_u32 (x : u32) : res TriggerShape :=
  let z := w32_to_Z x in
  if z =? 0 then Ok TriggerShape_None else
  if z =? 1 then Ok TriggerShape_WireA else
  if z =? 2 then Ok TriggerShape_Star else
  if z =? 3 then Ok TriggerShape_WireB else
  if z =? 4 then Ok TriggerShape_Button else
  if z =? 5 then Ok TriggerShape_WireC else
  if z =? 6 then Ok TriggerShape_WireD else
  if z =? 7 then Ok TriggerShape_Inder else
  Ok TriggerShape_WireA.
(** gameitem/trigger.rs:47-60 *)
Definition TriggerShape_to_u32 (e : TriggerShape) : u32 :=
  match e with
  | TriggerShape_None => Z_to_w32 0
  | TriggerShape_WireA => Z_to_w32 1
  | TriggerShape_Star => Z_to_w32 2
  | TriggerShape_WireB => Z_to_w32 3
  | TriggerShape_Button => Z_to_w32 4
  | TriggerShape_WireC => Z_to_w32 5
  | TriggerShape_WireD => Z_to_w32 6
  | TriggerShape_Inder => Z_to_w32 7
  end.
(** gameitem/trigger.rs:63-80 *)
Definition TriggerShape_to_json (e : TriggerShape) : jscalar :=
  match e with
  | TriggerShape_None => JStr "none"
  | TriggerShape_WireA => JStr "wire_a"
  | TriggerShape_Star => JStr "star"
  | TriggerShape_WireB => JStr "wire_b"
  | TriggerShape_Button => JStr "button"
  | TriggerShape_WireC => JStr "wire_c"
  | TriggerShape_WireD => JStr "wire_d"
  | TriggerShape_Inder => JStr "inder"
  end.
(** gameitem/trigger.rs:84-145 *)
Definition TriggerShape_of_json (j : jscalar) : res TriggerShape :=
  match j with
  | JStr s0 => let s := s0 in
      if (s =? "none")%string then Ok TriggerShape_None else
      if (s =? "wire_a")%string then Ok TriggerShape_WireA else
      if (s =? "star")%string then Ok TriggerShape_Star else
      if (s =? "wire_b")%string then Ok TriggerShape_WireB else
      if (s =? "button")%string then Ok TriggerShape_Button else
      if (s =? "wire_c")%string then Ok TriggerShape_WireC else
      if (s =? "wire_d")%string then Ok TriggerShape_WireD else
      if (s =? "inder")%string then Ok TriggerShape_Inder else
      Err
  | JU64 z =>
      if z =? 0 then Ok TriggerShape_None else
      if z =? 1 then Ok TriggerShape_WireA else
      if z =? 2 then Ok TriggerShape_Star else
      if z =? 3 then Ok TriggerShape_WireB else
      if z =? 4 then Ok TriggerShape_Button else
      if z =? 5 then Ok TriggerShape_WireC else
      if z =? 6 then Ok TriggerShape_WireD else
      if z =? 7 then Ok TriggerShape_Inder else
      Err
  | _ => Err
  end.

(** gamedata.rs:59-66 *)
Inductive ViewLayoutMode : Type := ViewLayoutMode_Legacy | ViewLayoutMode_Camera | ViewLayoutMode_Window.
(** gamedata.rs:68-77 *)
Definition ViewLayoutMode_of_u32 (x : u32) : res ViewLayoutMode :=
  let z := w32_to_Z x in
  if z =? 0 then Ok ViewLayoutMode_Legacy else
  if z =? 1 then Ok ViewLayoutMode_Camera else
  if z =? 2 then Ok ViewLayoutMode_Window else
  Panic.
(** gamedata.rs:79-87 *)
Definition ViewLayoutMode_to_u32 (e : ViewLayoutMode) : u32 :=
  match e with
  | ViewLayoutMode_Legacy => Z_to_w32 0
  | ViewLayoutMode_Camera => Z_to_w32 1
  | ViewLayoutMode_Window => Z_to_w32 2
  end.
(** gamedata.rs:90-101 *)
Definition ViewLayoutMode_to_json (e : ViewLayoutMode) : jscalar :=
  match e with
  | ViewLayoutMode_Legacy => JStr "legacy"
  | ViewLayoutMode_Camera => JStr "camera"
  | ViewLayoutMode_Window => JStr "window"
  end.
(** gamedata.rs:105-152 *)
Definition ViewLayoutMode_of_json (j : jscalar) : res ViewLayoutMode :=
  match j with
  | JStr s0 => let s := s0 in
      if (s =? "legacy")%string then Ok ViewLayoutMode_Legacy else
      if (s =? "camera")%string then Ok ViewLayoutMode_Camera else
      if (s =? "window")%string then Ok ViewLayoutMode_Window else
      Err
  | JU64 z =>
      if z =? 0 then Ok ViewLayoutMode_Legacy else
      if z =? 1 then Ok ViewLayoutMode_Camera else
      if z =? 2 then Ok ViewLayoutMode_Window else
      Err
  | _ => Err
  end.

(** gamedata.rs:205-217 *)
Inductive ToneMapper : Type := ToneMapper_Reinhard | ToneMapper_AgX | ToneMapper_Filmic | ToneMapper_Neutral | ToneMapper_AgXPunchy | ToneMapper_Other (n : u32).
(** gamedata.rs:219-230 *)
Definition ToneMapper_of_u32 (x : u32) : res ToneMapper :=
  let z := w32_to_Z x in
  if z =? 0 then Ok ToneMapper_Reinhard else
  if z =? 1 then Ok ToneMapper_AgX else
  if z =? 2 then Ok ToneMapper_Filmic else
  if z =? 3 then Ok ToneMapper_Neutral else
  if z =? 4 then Ok ToneMapper_AgXPunchy else
  Ok (ToneMapper_Other x).
(** gamedata.rs:232-243 *)
Definition ToneMapper_to_u32 (e : ToneMapper) : u32 :=
  match e with
  | ToneMapper_Reinhard => Z_to_w32 0
  | ToneMapper_AgX => Z_to_w32 1
  | ToneMapper_Filmic => Z_to_w32 2
  | ToneMapper_Neutral => Z_to_w32 3
  | ToneMapper_AgXPunchy => Z_to_w32 4
  | ToneMapper_Other n => n
  end.
(** The values that [ToneMapper_of_u32] produces: [Unknown] is only used for other codes. *)
Definition ToneMapper_ok (e : ToneMapper) : bool :=
  match e with ToneMapper_Other n => negb (existsb (Z.eqb (w32_to_Z n)) [0; 1; 2; 3; 4]) | _ => true end.
(** gamedata.rs:246-260 *)
Definition ToneMapper_to_json (e : ToneMapper) : jscalar :=
  match e with
  | ToneMapper_Reinhard => JStr "reinhard"
  | ToneMapper_AgX => JStr "agx"
  | ToneMapper_Filmic => JStr "filmic"
  | ToneMapper_Neutral => JStr "neutral"
  | ToneMapper_AgXPunchy => JStr "agx_punchy"
  | ToneMapper_Other n => JU64 (w32_to_Z n)
  end.
(** gamedata.rs:264-315 *)
Definition ToneMapper_of_json (j : jscalar) : res ToneMapper :=
  match j with
  | JStr s0 => let s := s0 in
      if (s =? "reinhard")%string then Ok ToneMapper_Reinhard else
      if (s =? "agx")%string then Ok ToneMapper_AgX else
      if (s =? "filmic")%string then Ok ToneMapper_Filmic else
      if (s =? "neutral")%string then Ok ToneMapper_Neutral else
      if (s =? "agx_punchy")%string then Ok ToneMapper_AgXPunchy else
      if (s =? "tony_mc_mapface")%string then Ok ToneMapper_AgX else
      Err
  | JU64 z =>
      if z <? 4294967296 then ToneMapper_of_u32 (Z_to_w32 z) else Err
  | _ => Err
  end.

(** material.rs:17-21 *)
Inductive MaterialType : Type := MaterialType_Unknown | MaterialType_Basic | MaterialType_Metal.
(** material.rs:23-32 *)
Definition MaterialType_of_i32 (x : i32) : res MaterialType :=
  let z := w32_to_Z x in
  if z =? 4294967295 then Ok MaterialType_Unknown else
  if z =? 0 then Ok MaterialType_Basic else
  if z =? 1 then Ok MaterialType_Metal else
  Panic.
(** material.rs:34-42 *)
Definition MaterialType_to_i32 (e : MaterialType) : i32 :=
  match e with
  | MaterialType_Unknown => Z_to_w32 4294967295
  | MaterialType_Basic => Z_to_w32 0
  | MaterialType_Metal => Z_to_w32 1
  end.
(** material.rs:45-56 *)
Definition MaterialType_to_json (e : MaterialType) : jscalar :=
  match e with
  | MaterialType_Unknown => JStr "unknown"
  | MaterialType_Basic => JStr "basic"
  | MaterialType_Metal => JStr "metal"
  end.
(** material.rs:60-92 ([to_lowercase] is modelled on ASCII only) *)
Definition MaterialType_of_json (j : jscalar) : res MaterialType :=
  match j with
  | JStr s0 => let s := ascii_lower s0 in
      if (s =? "unknown")%string then Ok MaterialType_Unknown else
      if (s =? "basic")%string then Ok MaterialType_Basic else
      if (s =? "metal")%string then Ok MaterialType_Metal else
      Err
  | _ => Err
  end.

(** renderprobe.rs:8-11 *)
Inductive RenderProbeType : Type := RenderProbeType_PlaneReflection | RenderProbeType_ScreenSpaceTransparency.
(** renderprobe.rs:13-21 *)
Definition RenderProbeType_of_u32 (x : u32) : res RenderProbeType :=
  let z := w32_to_Z x in
  if z =? 0 then Ok RenderProbeType_PlaneReflection else
  if z =? 1 then Ok RenderProbeType_ScreenSpaceTransparency else
  Panic.
(** renderprobe.rs:23-30 *)
Definition RenderProbeType_to_u32 (e : RenderProbeType) : u32 :=
  match e with
  | RenderProbeType_PlaneReflection => Z_to_w32 0
  | RenderProbeType_ScreenSpaceTransparency => Z_to_w32 1
  end.
(** renderprobe.rs:80-91 *)
Definition RenderProbeType_to_json (e : RenderProbeType) : jscalar :=
  match e with
  | RenderProbeType_PlaneReflection => JStr "plane_reflection"
  | RenderProbeType_ScreenSpaceTransparency => JStr "screen_space_transparency"
  end.
(** renderprobe.rs:33-76 *)
Definition RenderProbeType_of_json (j : jscalar) : res RenderProbeType :=
  match j with
  | JStr s0 => let s := s0 in
      if (s =? "plane_reflection")%string then Ok RenderProbeType_PlaneReflection else
      if (s =? "screen_space_transparency")%string then Ok RenderProbeType_ScreenSpaceTransparency else
      Err
  | JU64 z =>
      if z =? 0 then Ok RenderProbeType_PlaneReflection else
      if z =? 1 then Ok RenderProbeType_ScreenSpaceTransparency else
      Err
  | _ => Err
  end.

(** renderprobe.rs:95-110 *)
Inductive ReflectionMode : Type := ReflectionMode_None | ReflectionMode_Balls | ReflectionMode_Static | ReflectionMode_StaticNBalls | ReflectionMode_StaticNDynamic | ReflectionMode_Dynamic | ReflectionMode_Unknown.
(** renderprobe.rs:112-125 *)
Definition ReflectionMode_of_u32 (x : u32) : res ReflectionMode :=
  let z := w32_to_Z x in
  if z =? 0 then Ok ReflectionMode_None else
  if z =? 1 then Ok ReflectionMode_Balls else
  if z =? 2 then Ok ReflectionMode_Static else
  if z =? 3 then Ok ReflectionMode_StaticNBalls else
  if z =? 4 then Ok ReflectionMode_StaticNDynamic else
  if z =? 5 then Ok ReflectionMode_Dynamic else
  if z =? 6 then Ok ReflectionMode_Unknown else
  Panic.
(** renderprobe.rs:127-139 *)
Definition ReflectionMode_to_u32 (e : ReflectionMode) : u32 :=
  match e with
  | ReflectionMode_None => Z_to_w32 0
  | ReflectionMode_Balls => Z_to_w32 1
  | ReflectionMode_Static => Z_to_w32 2
  | ReflectionMode_StaticNBalls => Z_to_w32 3
  | ReflectionMode_StaticNDynamic => Z_to_w32 4
  | ReflectionMode_Dynamic => Z_to_w32 5
  | ReflectionMode_Unknown => Z_to_w32 6
  end.
(** renderprobe.rs:142-158 *)
Definition ReflectionMode_to_json (e : ReflectionMode) : jscalar :=
  match e with
  | ReflectionMode_None => JStr "none"
  | ReflectionMode_Balls => JStr "balls"
  | ReflectionMode_Static => JStr "static"
  | ReflectionMode_StaticNBalls => JStr "static_and_balls"
  | ReflectionMode_StaticNDynamic => JStr "static_and_dynamic"
  | ReflectionMode_Dynamic => JStr "dynamic"
  | ReflectionMode_Unknown => JStr "unknown"
  end.
(** renderprobe.rs:162-223 *)
Definition ReflectionMode_of_json (j : jscalar) : res ReflectionMode :=
  match j with
  | JStr s0 => let s := s0 in
      if (s =? "none")%string then Ok ReflectionMode_None else
      if (s =? "balls")%string then Ok ReflectionMode_Balls else
      if (s =? "static")%string then Ok ReflectionMode_Static else
      if (s =? "static_and_balls")%string then Ok ReflectionMode_StaticNBalls else
      if (s =? "static_and_dynamic")%string then Ok ReflectionMode_StaticNDynamic else
      if (s =? "dynamic")%string then Ok ReflectionMode_Dynamic else
      if (s =? "unknown")%string then Ok ReflectionMode_Unknown else
      Err
  | JU64 z =>
      if z =? 0 then Ok ReflectionMode_None else
      if z =? 1 then Ok ReflectionMode_Balls else
      if z =? 2 then Ok ReflectionMode_Static else
      if z =? 3 then Ok ReflectionMode_StaticNBalls else
      if z =? 4 then Ok ReflectionMode_StaticNDynamic else
      if z =? 5 then Ok ReflectionMode_Dynamic else
      if z =? 6 then Ok ReflectionMode_Unknown else
      Err
  | _ => Err
  end.

(** sound.rs:17-20 *)
Inductive OutputTarget : Type := OutputTarget_Table | OutputTarget_Backglass.
(** sound.rs:31-39 *)
Definition OutputTarget_of_u8 (x : byte) : res OutputTarget :=
  let z := byte_to_Z x in
  if z =? 0 then Ok OutputTarget_Table else
  if z =? 1 then Ok OutputTarget_Backglass else
  Panic.
(** sound.rs:22-29 *)
Definition OutputTarget_to_u8 (e : OutputTarget) : byte :=
  match e with
  | OutputTarget_Table => Z_to_byte 0
  | OutputTarget_Backglass => Z_to_byte 1
  end.
(** sound.rs:42-53 *)
Definition OutputTarget_to_json (e : OutputTarget) : jscalar :=
  match e with
  | OutputTarget_Table => JStr "table"
  | OutputTarget_Backglass => JStr "backglass"
  end.
(** sound.rs:57-86 ([as_u64().unwrap()] panics on other numbers) *)
Definition OutputTarget_of_json (j : jscalar) : res OutputTarget :=
  match j with
  | JStr s0 => let s := s0 in
      if (s =? "table")%string then Ok OutputTarget_Table else
      if (s =? "backglass")%string then Ok OutputTarget_Backglass else
      Err
  | JU64 z =>
      if z =? 0 then Ok OutputTarget_Table else
      if z =? 1 then Ok OutputTarget_Backglass else
      Err
  | JNum => Panic
  | _ => Err
  end.

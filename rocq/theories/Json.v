(** JSON values, and how serde turns records into them and back: the serde and serde_json crates as used by the derived
    (de)serialisers of src/vpx.

    Texts are not modelled: serde_json's parser and printer are taken to be inverse to each other on the values below.
    Simplifications: when several fields of an object are wrong, only the first in the order of the declaration is looked at (serde
    goes through the file); arrays in place of objects, which serde's derived readers accept, are errors here. *)
From Verif Require Import Base Text Biff Quantize Common Enums ColorText JsonFloat.

(** What serde_json and the standard library do with numbers and texts *)
Record json_lib : Type := mkJsonLib {
  jl_num : Type;                            (* a number with a fraction or an exponent *)
  jl_num_of : f32 -> jl_num;                (* [serialize_f32] of a finite float *)
  jl_as_f32 : jl_num -> option f32;         (* [as_f64] followed by [as f32] *)
  jl_int_as_f32 : Z -> f32;                 (* the same for an integer *)
  jl_lower : rstring -> rstring;            (* [str::to_lowercase] *)
  jl_order : list string -> list string }.  (* the order in which a [HashSet] is gone through *)
Existing Class json_lib.

Section Json.
Context {L : json_lib}.

Inductive jnum : Type := NInt (z : Z) | NFloat (n : jl_num L).
Inductive json : Type :=
| Jnull
| Jbool (b : bool)
| Jnum (n : jnum)
| Jstr (s : rstring)
| Jarr (l : list json)
| Jobj (fields : list (string * json)).   (* the keys as UTF-8; in the order of the file *)
Definition jnum_as_f32 (n : jnum) : option f32 :=
  match n with NInt z => Some (jl_int_as_f32 L z) | NFloat x => jl_as_f32 L x end.

(** How a type is written and read, and what a missing field gives ([None]: an error) *)
Record jcodec (A : Type) : Type := mkCodec { jc_to : A -> json; jc_of : json -> res A; jc_missing : option A }.
Arguments mkCodec {A}. Arguments jc_to {A}. Arguments jc_of {A}. Arguments jc_missing {A}.

(** ** Scalars *)
Definition jc_bool : jcodec bool := mkCodec Jbool (fun j => match j with Jbool b => Ok b | _ => Err end) None.
Definition jc_string : jcodec rstring := mkCodec Jstr (fun j => match j with Jstr s => Ok s | _ => Err end) None.
(** an integer between [lo] and [hi] *)
Definition jc_integer {A} (lo hi : Z) (to : A -> Z) (of : Z -> A) : jcodec A :=
  mkCodec (fun x => Jnum (NInt (to x)))
    (fun j => match j with Jnum (NInt z) => if (lo <=? z) && (z <=? hi) then Ok (of z) else Err | _ => Err end) None.
Definition jc_u8 : jcodec byte := jc_integer 0 255 byte_to_Z Z_to_byte.
Definition jc_u16 : jcodec u16 := jc_integer 0 65535 w16_to_Z Z_to_w16.
Definition jc_u32 : jcodec u32 := jc_integer 0 4294967295 w32_to_Z Z_to_w32.
Definition w32_signed (x : w32) : Z := let z := w32_to_Z x in if z <? 2147483648 then z else z - 4294967296.
Definition jc_i32 : jcodec i32 := jc_integer (-2147483648) 2147483647 w32_signed (fun z => Z_to_w32 (z mod 4294967296)).
(** floats, as in JsonFloat.v *)
Definition of_jvalue (v : jvalue jnum) : json :=
  match v with JNull => Jnull | JString s => Jstr s | JNumber n => Jnum n | JsonFloat.JOther => Jarr [] end.
Definition to_jvalue (j : json) : jvalue jnum :=
  match j with Jnull => JNull | Jstr s => JString s | Jnum n => JNumber n | _ => JsonFloat.JOther end.
Definition jc_f32 : jcodec f32 :=
  mkCodec (fun x => of_jvalue (f32_to_json jnum (fun x => NFloat (jl_num_of L x)) x))
    (fun j => f32_from_json jnum jnum_as_f32 (to_jvalue j)) None.
(** json.rs: [F32WithNanInf] *)
Definition jc_f32_nan_inf : jcodec f32 :=
  mkCodec (fun x => of_jvalue (F32WithNanInf_to_json jnum (fun x => NFloat (jl_num_of L x)) x))
    (fun j => F32WithNanInf_from_json jnum jnum_as_f32 (jl_lower L) (to_jvalue j)) None.
(** enumerations, as in Enums.v *)
Definition of_jscalar (s : jscalar) : json :=
  match s with JStr s => Jstr (lit s) | JU64 z => Jnum (NInt z) | JNum | Enums.JOther => Jarr [] end.
Definition to_jscalar (j : json) : jscalar :=
  match j with
  | Jstr s => JStr (string_of_list_byte (utf8_encode s))
  | Jnum (NInt z) => if (0 <=? z) && (z <? 18446744073709551616) then JU64 z else JNum
  | Jnum (NFloat _) => JNum
  | _ => Enums.JOther
  end.
Definition jc_enum {E} (to : E -> jscalar) (of : jscalar -> res E) : jcodec E :=
  mkCodec (fun e => of_jscalar (to e)) (fun j => of (to_jscalar j)) None.
(** color.rs, as in ColorText.v *)
Definition jc_Color : jcodec Color :=
  mkCodec (fun c => Jstr (Color_to_text c)) (fun j => match j with Jstr s => Color_of_text s | _ => Err end) None.

(** ** Containers *)
(** [Option<T>]: null or a missing field is [None] *)
Definition jc_option {A} (c : jcodec A) : jcodec (option A) :=
  mkCodec (fun o => match o with Some x => jc_to c x | None => Jnull end)
    (fun j => match j with Jnull => Ok None | _ => x <~ jc_of c j ;; Ok (Some x) end) (Some None).
Fixpoint read_all {A} (f : json -> res A) (l : list json) : res (list A) :=
  match l with [] => Ok [] | j :: l' => x <~ f j ;; xs <~ read_all f l' ;; Ok (x :: xs) end.
(** [Vec<T>] *)
Definition jc_list {A} (c : jcodec A) : jcodec (list A) :=
  mkCodec (fun l => Jarr (map (jc_to c) l)) (fun j => match j with Jarr l => read_all (jc_of c) l | _ => Err end) None.
(** [[T; n]] *)
Definition jc_array {A} (n : nat) (c : jcodec A) : jcodec (list A) :=
  mkCodec (fun l => Jarr (map (jc_to c) l))
    (fun j => match j with
              | Jarr l => if Nat.eqb (List.length l) n then read_all (jc_of c) l else Err
              | _ => Err
              end) None.
(** [(A, B)] *)
Definition jc_pair {A B} (a : jcodec A) (b : jcodec B) : jcodec (A * B) :=
  mkCodec (fun p => Jarr [jc_to a (fst p); jc_to b (snd p)])
    (fun j => match j with Jarr [x; y] => x' <~ jc_of a x ;; y' <~ jc_of b y ;; Ok (x', y') | _ => Err end) None.

(** ** Records *)
(** A field that is [None] is left out ([skip_serializing_if]). *)
Definition present (fs : list (string * option json)) : list (string * json) :=
  flat_map (fun e => match snd e with Some j => [(fst e, j)] | None => [] end) fs.
Definition object (fs : list (string * option json)) : json := Jobj (present fs).
Definition put {A} (name : string) (c : jcodec A) (x : A) : string * option json := (name, Some (jc_to c x)).
(** [skip_serializing_if = "Option::is_none"] *)
Definition put_some {A} (name : string) (c : jcodec A) (o : option A) : string * option json := (name, option_map (jc_to c) o).
(** A field under its name or an alias: two are an error, none is what the type says. *)
Definition named {A} (names : list string) (e : string * A) : bool := existsb (String.eqb (fst e)) names.
Definition get {A} (o : list (string * json)) (names : list string) (c : jcodec A) : res A :=
  match filter (named names) o with
  | [] => match jc_missing c with Some d => Ok d | None => Err end
  | [(_, j)] => jc_of c j
  | _ => Err
  end.
Definition fields_of (j : json) : res (list (string * json)) := match j with Jobj o => Ok o | _ => Err end.
Definition jc_record {A} (to : A -> json) (of : list (string * json) -> res A) : jcodec A :=
  mkCodec to (fun j => o <~ fields_of j ;; of o) None.

(** ** Records used in many places *)
(** gameitem/vertex2d.rs:4-8, vertex3d.rs:4-9, vertex4d.rs:4-10 *)
Definition jc_Vertex2D : jcodec Vertex2D :=
  jc_record (fun v => object [put "x" jc_f32 (v2_x v); put "y" jc_f32 (v2_y v)])
    (fun o => x <~ get o ["x"%string] jc_f32 ;; y <~ get o ["y"%string] jc_f32 ;; Ok (mkVertex2D x y)).
Definition jc_Vertex3D : jcodec Vertex3D :=
  jc_record (fun v => object [put "x" jc_f32 (v3_x v); put "y" jc_f32 (v3_y v); put "z" jc_f32 (v3_z v)])
    (fun o => x <~ get o ["x"%string] jc_f32 ;; y <~ get o ["y"%string] jc_f32 ;; z <~ get o ["z"%string] jc_f32 ;; Ok (mkVertex3D x y z)).
Definition jc_Vertex4D : jcodec Vertex4D :=
  jc_record (fun v => object [put "x" jc_f32 (v4_x v); put "y" jc_f32 (v4_y v); put "z" jc_f32 (v4_z v); put "w" jc_f32 (v4_w v)])
    (fun o => x <~ get o ["x"%string] jc_f32 ;; y <~ get o ["y"%string] jc_f32 ;; z <~ get o ["z"%string] jc_f32 ;;
              w <~ get o ["w"%string] jc_f32 ;; Ok (mkVertex4D x y z w)).
(** gameitem/select.rs:42-66 [TimerData]: its fields are put among those of the item ([flatten]) *)
Definition put_TimerData (t : TimerData) : list (string * option json) :=
  [put "is_timer_enabled" jc_bool (td_is_enabled t); put "timer_interval" jc_i32 (td_interval t)].
Definition get_TimerData (o : list (string * json)) : res TimerData :=
  e <~ get o ["is_timer_enabled"%string] jc_bool ;; i <~ get o ["timer_interval"%string] jc_i32 ;; Ok (mkTimerData e i).
(** gameitem/dragpoint.rs [DragPointJson], [from_dragpoint], [to_dragpoint] *)
Definition jc_DragPoint : jcodec DragPoint :=
  jc_record (fun d => object [
      put "x" jc_f32 (dp_x d); put "y" jc_f32 (dp_y d); put "z" jc_f32 (dp_z d); put "smooth" jc_bool (dp_smooth d);
      put "is_slingshot" (jc_option jc_bool) (dp_is_slingshot d); put "has_auto_texture" jc_bool (dp_has_auto_texture d);
      put "tex_coord" jc_f32 (dp_tex_coord d); put "is_locked" jc_bool (dp_is_locked d);
      put "editor_layer" (jc_option jc_u32) (dp_editor_layer d); put_some "editor_layer_name" jc_string (dp_editor_layer_name d);
      put_some "editor_layer_visibility" jc_bool (dp_editor_layer_visibility d)])
    (fun o =>
      x <~ get o ["x"%string] jc_f32 ;; y <~ get o ["y"%string] jc_f32 ;; z <~ get o ["z"%string] jc_f32 ;;
      smooth <~ get o ["smooth"%string] jc_bool ;; is_slingshot <~ get o ["is_slingshot"%string] (jc_option jc_bool) ;;
      has_auto_texture <~ get o ["has_auto_texture"%string] jc_bool ;; tex_coord <~ get o ["tex_coord"%string] jc_f32 ;;
      is_locked <~ get o ["is_locked"%string] jc_bool ;; editor_layer <~ get o ["editor_layer"%string] (jc_option jc_u32) ;;
      editor_layer_name <~ get o ["editor_layer_name"%string] (jc_option jc_string) ;;
      editor_layer_visibility <~ get o ["editor_layer_visibility"%string] (jc_option jc_bool) ;;
      Ok (mkDragPoint x y z smooth is_slingshot has_auto_texture tex_coord is_locked editor_layer editor_layer_name editor_layer_visibility)).
(** gameitem/font.rs:9-16 [FontStyle]: the variants by name, read into a [HashSet] *)
Definition FontStyles_names (s : FontStyles) : list string :=
  (if fs_normal s then ["Normal"%string] else []) ++ (if fs_bold s then ["Bold"%string] else []) ++ (if fs_italic s then ["Italic"%string] else []) ++
  (if fs_underline s then ["Underline"%string] else []) ++ (if fs_strikethrough s then ["Strikethrough"%string] else []).
Definition add_style (name : string) (s : FontStyles) : res FontStyles :=
  let '(mkFontStyles n b i u k) := s in
  if (name =? "Normal")%string then Ok (mkFontStyles true b i u k)
  else if (name =? "Bold")%string then Ok (mkFontStyles n true i u k)
  else if (name =? "Italic")%string then Ok (mkFontStyles n b true u k)
  else if (name =? "Underline")%string then Ok (mkFontStyles n b i true k)
  else if (name =? "Strikethrough")%string then Ok (mkFontStyles n b i u true)
  else Err.
Fixpoint add_styles (l : list json) (s : FontStyles) : res FontStyles :=
  match l with
  | [] => Ok s
  | j :: l' => match to_jscalar j with JStr name => s' <~ add_style name s ;; add_styles l' s' | _ => Err end
  end.
Definition jc_FontStyles : jcodec FontStyles :=
  mkCodec (fun s => Jarr (map (fun n => Jstr (lit n)) (jl_order L (FontStyles_names s))))
    (fun j => match j with Jarr l => add_styles l (mkFontStyles false false false false false) | _ => Err end) None.
(** gameitem/font.rs:136-168 [FontJson], [from_font], [to_font] *)
Definition jc_FontDesc : jcodec FontDesc :=
  jc_record (fun f => object [
      put_some "charset" jc_u16 (if w16_to_Z (fd_charset f) =? 0 then None else Some (fd_charset f));
      put "style" jc_FontStyles (fd_style f); put "weight" jc_u16 (fd_weight f); put "size" jc_u32 (fd_size f);
      put "name" jc_string (fd_name f)])
    (fun o =>
      charset <~ get o ["charset"%string] (jc_option jc_u16) ;; style <~ get o ["style"%string] jc_FontStyles ;;
      weight <~ get o ["weight"%string] jc_u16 ;; size <~ get o ["size"%string] jc_u32 ;; name <~ get o ["name"%string] jc_string ;;
      Ok (mkFontDesc (match charset with Some c => c | None => Z_to_w16 0 end) style weight size name)).
End Json.
Arguments json {L}. Arguments jnum {L}. Arguments jcodec {L} A.
Arguments mkCodec {L A}. Arguments jc_to {L A}. Arguments jc_of {L A}. Arguments jc_missing {L A}.

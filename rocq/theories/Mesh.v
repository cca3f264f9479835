(** Mesh data of primitives: src/vpx/gameitem/primitive.rs (the mesh part), src/vpx/expanded/primitives.rs (index encoding,
    animation frames) and src/vpx/obj.rs (Wavefront OBJ files).

    OBJ files are modelled as the lines that the crate wavefront-obj-io writes and parses; the syntax of a line is that crate's
    business.  zlib is an oracle. *)
From Coq Require Import Floats.SpecFloat.
From Verif Require Import Base Text Image Sound Quantize ColorText JsonFloat Cfb.

(** src/vpx/model.rs [Vertex3dNoTex2] *)
Record Vtx : Set := mkVtx { v_x : f32; v_y : f32; v_z : f32; v_nx : f32; v_ny : f32; v_nz : f32; v_tu : f32; v_tv : f32 }.
(** gameitem/primitive.rs:524-527 [VertexWrapper]: the 32 stored bytes and the vertex *)
Record wrapper : Set := mkWrapper { w_bytes : bytes; w_vertex : Vtx }.
(** obj.rs [VpxFace]; i64 indices *)
Record face : Set := mkFace { f_0 : Z; f_1 : Z; f_2 : Z }.

(** gameitem/primitive.rs:20-24 *)
Definition BYTES_PER_VERTEX : Z := 32.
Definition MAX_VERTICES_FOR_2_BYTE_INDEX : Z := 65535.

(** ** Stored meshes *)
(** [Buf::get_f32_le], [get_u16_le], [get_u32_le]: panic when the buffer is too short *)
Definition take_w32 (d : bytes) : res (w32 * bytes) :=
  match d with a :: b :: c :: e :: d' => Ok (W32 a b c e, d') | _ => Panic end.
Definition take_w16 (d : bytes) : res (w16 * bytes) :=
  match d with a :: b :: d' => Ok (W16 a b, d') | _ => Panic end.
(** gameitem/primitive.rs:1211-1240 [read_vertex] *)
Definition read_vertex (d : bytes) : res (wrapper * bytes) :=
  '(x, r) <~ take_w32 d ;; '(y, r) <~ take_w32 r ;; '(z, r) <~ take_w32 r ;;
  '(nx, r) <~ take_w32 r ;; '(ny, r) <~ take_w32 r ;; '(nz, r) <~ take_w32 r ;;
  '(tu, r) <~ take_w32 r ;; '(tv, r) <~ take_w32 r ;;
  Ok (mkWrapper (firstn 32 d) (mkVtx x y z nx ny nz tu tv), r).
(** gameitem/primitive.rs:1187-1195 [raw_vertices_to_vertices] *)
Fixpoint read_vertices (n : nat) (d : bytes) : res (list wrapper) :=
  match n with
  | O => Ok []
  | S n' => '(v, r) <~ read_vertex d ;; vs <~ read_vertices n' r ;; Ok (v :: vs)
  end.
(** gameitem/primitive.rs:1149-1155 [read_vertex_index_from_vpx]; [wide]: four bytes per index *)
Definition read_index (wide : bool) (d : bytes) : res (Z * bytes) :=
  if wide then '(w, r) <~ take_w32 d ;; Ok (w32_to_Z w, r) else '(w, r) <~ take_w16 d ;; Ok (w16_to_Z w, r).
(** gameitem/primitive.rs:1197-1209 [raw_indices_to_indices] *)
Fixpoint read_faces (wide : bool) (n : nat) (d : bytes) : res (list face) :=
  match n with
  | O => Ok []
  | S n' => '(a, r) <~ read_index wide d ;; '(b, r) <~ read_index wide r ;; '(c, r) <~ read_index wide r ;;
            fs <~ read_faces wide n' r ;; Ok (mkFace a b c :: fs)
  end.
Definition index_width (wide : bool) : Z := if wide then 4 else 2.
(** expanded/primitives.rs:888-892, gameitem/primitive.rs:567-571: four bytes per index? *)
Definition wide_indices (num_vertices : Z) : bool := MAX_VERTICES_FOR_2_BYTE_INDEX <? num_vertices.

(** The mesh fields of a primitive *)
Record mesh_fields : Set := mkMeshFields {
  mf_num_vertices : option u32; mf_vertices : option bytes; mf_num_indices : option u32; mf_indices : option bytes }.

Section Zlib.
Variable decompress : bytes -> res bytes.   (* [decompress_mesh_data] *)
Variable compress : bytes -> bytes.         (* [compress_mesh_data]; writing to memory does not fail *)

(** gameitem/primitive.rs:543-590 [read_mesh]; [assert_eq!] panics *)
Definition read_mesh (p : mesh_fields) : res (option (list wrapper * list face)) :=
  match mf_vertices p with
  | None => Ok None
  | Some vd =>
      match mf_indices p with
      | None => Err
      | Some id =>
          raw <~ decompress vd ;; inds <~ decompress id ;;
          let n := zlen raw / BYTES_PER_VERTEX in
          if negb (n =? match mf_num_vertices p with Some w => w32_to_Z w | None => 0 end) then Panic
          else
            let wide := wide_indices n in
            if negb (zlen inds / index_width wide =? match mf_num_indices p with Some w => w32_to_Z w | None => 0 end) then Panic
            else vs <~ read_vertices (Z.to_nat n) raw ;;
                 fs <~ read_faces wide (Z.to_nat (zlen inds / index_width wide / 3)) inds ;;
                 Ok (Some (vs, fs))
      end
  end.
End Zlib.

(** obj.rs:418-428 [write_vertex_index_for_vpx]; [as u16], [as u32] truncate *)
Definition write_index (wide : bool) (i : Z) : bytes := if wide then w32_bytes (Z_to_w32 i) else w16_bytes (Z_to_w16 i).
(** expanded/primitives.rs:887-900 [vpx_encode_vertices] *)
Definition encode_faces (num_vertices : Z) (fs : list face) : bytes :=
  let wide := wide_indices num_vertices in
  flat_map (fun f => write_index wide (f_0 f) ++ write_index wide (f_1 f) ++ write_index wide (f_2 f)) fs.

(** ** Animation frames *)
(** gameitem/primitive.rs:1247-1254 [VertData] *)
Record frame_vertex : Set := mkFv { fv_x : f32; fv_y : f32; fv_z : f32; fv_nx : f32; fv_ny : f32; fv_nz : f32 }.
(** gameitem/primitive.rs:1284-1299 [read_animation_vertex_data] *)
Definition read_frame_vertex (d : bytes) : res (frame_vertex * bytes) :=
  '(x, r) <~ take_w32 d ;; '(y, r) <~ take_w32 r ;; '(z, r) <~ take_w32 r ;;
  '(nx, r) <~ take_w32 r ;; '(ny, r) <~ take_w32 r ;; '(nz, r) <~ take_w32 r ;; Ok (mkFv x y z nx ny nz, r).
Fixpoint read_frame_vertices (n : nat) (d : bytes) : res (list frame_vertex) :=
  match n with
  | O => Ok []
  | S n' => '(v, r) <~ read_frame_vertex d ;; vs <~ read_frame_vertices n' r ;; Ok (v :: vs)
  end.
(** gameitem/primitive.rs:1301-1308 [write_animation_vertex_data] *)
Definition write_frame_vertex (v : frame_vertex) : bytes :=
  w32_bytes (fv_x v) ++ w32_bytes (fv_y v) ++ w32_bytes (fv_z v) ++ w32_bytes (fv_nx v) ++ w32_bytes (fv_ny v) ++ w32_bytes (fv_nz v).
(** gameitem/primitive.rs:1259-1282 [read_vpx_animation_frame] *)
Definition read_animation_frame (decompress : bytes -> res bytes) (compressed : bytes) (compressed_length : u32) : res (list frame_vertex) :=
  if negb (zlen compressed =? w32_to_Z compressed_length) then Err
  else d <~ decompress compressed ;; read_frame_vertices (Z.to_nat (zlen d / 24)) d.
(** expanded/primitives.rs:647-668 [replace_vertices] *)
Definition replace_vertices (vs : list wrapper) (fvs : list frame_vertex) : list wrapper :=
  map (fun e => let v := w_vertex (fst e) in let a := snd e in
                mkWrapper (repeat x00 32) (mkVtx (fv_x a) (fv_y a) (fv_z a) (fv_nx a) (fv_ny a) (fv_nz a) (v_tu v) (v_tv v)))
      (combine vs fvs).

(** ** OBJ files *)
(** obj.rs:61-69 [obj_vpx_comment]; [join(" ")] *)
Fixpoint join_space (l : list rstring) : rstring :=
  match l with [] => [] | [s] => s | s :: l' => s ++ lit " " ++ join_space l' end.
Definition obj_vpx_comment (d : bytes) : rstring := lit "vpx " ++ join_space (map hex2 d).
(** [char::is_whitespace] *)
Definition is_whitespace (c : uchar) : bool :=
  ((9 <=? c) && (c <=? 13) || (c =? 32) || (c =? 0x85) || (c =? 0xA0) || (c =? 0x1680) || (0x2000 <=? c) && (c <=? 0x200A) ||
   (c =? 0x2028) || (c =? 0x2029) || (c =? 0x202F) || (c =? 0x205F) || (c =? 0x3000))%N.
(** [str::split_whitespace]: the maximal runs of other characters; [word] is the current run, reversed *)
Fixpoint split_whitespace (word s : rstring) : list rstring :=
  match s with
  | [] => match word with [] => [] | _ => [rev word] end
  | c :: s' =>
      if is_whitespace c then match word with [] => split_whitespace [] s' | _ => rev word :: split_whitespace [] s' end
      else split_whitespace (c :: word) s'
  end.
(** obj.rs:54-59 [VpxCommentBytes] *)
Inductive comment_bytes : Set := NormalBytes (d : bytes) | VertexBytes (d : bytes).
Fixpoint parse_hex_words (l : list rstring) : res bytes :=
  match l with
  | [] => Ok []
  | s :: l' => match u8_from_hex (utf8_encode s) with Ok b => r <~ parse_hex_words l' ;; Ok (b :: r) | Fail _ => Panic end
  end.
(** obj.rs:71-93 [obj_parse_vpx_comment]; [unwrap] panics *)
Definition obj_parse_vpx_comment (comment : rstring) : res (option comment_bytes) :=
  match strip_prefix (lit "vpx ") comment with
  | Some hex =>
      d <~ parse_hex_words (split_whitespace [] hex) ;;
      Ok (if (List.length d =? 12)%nat then Some (NormalBytes d) else if (List.length d =? 32)%nat then Some (VertexBytes d) else None)
  | None => Ok None
  end.

(** An f64 is a [spec_float] here (no NaN payloads) *)
Definition f64 := spec_float.
Definition f64_one : f64 := binary_normalize 53 1024 1 0 false.
(** [1.0 - v] *)
Definition one_minus (v : f64) : f64 := SFsub 53 1024 f64_one v.
(** [v as f32] *)
Definition as_f32 (v : f64) : f32 := f32_bits (f32_of_f64 v).
(** [-x] flips the sign bit *)
Definition neg_f32 (x : f32) : f32 :=
  Z_to_w32 (if 2147483648 <=? w32_to_Z x then w32_to_Z x - 2147483648 else w32_to_Z x + 2147483648).
Definition f32_zero : f32 := Z_to_w32 0.
Definition f32_half : f32 := Z_to_w32 0x3f000000.
Definition f32_two : f32 := Z_to_w32 0x40000000.

(** The lines of an OBJ file; numbers are still texts *)
Inductive line (num : Type) : Type :=
| LComment (s : rstring)
| LObject (name : rstring)
| LVertex (x y z : num) (w : option num)
| LTex (u : num) (v w : option num)
| LNormal (x y z : num)
| LFace (corners : list (N * option N * option N)).
Arguments LComment {num}. Arguments LObject {num}. Arguments LVertex {num}. Arguments LTex {num}. Arguments LNormal {num}. Arguments LFace {num}.

(** obj.rs:739-744 [FaceCorner]: u32 fields, 0 when missing *)
Record corner : Set := mkCorner { c_v : Z; c_vt : Z; c_vn : Z }.
(** obj.rs:770-788 [resolve_index] *)
Definition resolve_index (idx len : Z) : res Z :=
  if idx =? 0 then Err else if len <=? idx - 1 then Err else Ok (idx - 1).
Fixpoint resolve_corners (np nt nn : Z) (l : list corner) : res (list (Z * Z * Z)) :=
  match l with
  | [] => Ok []
  | c :: l' => p <~ resolve_index (c_v c) np ;; t <~ resolve_index (c_vt c) nt ;; n <~ resolve_index (c_vn c) nn ;;
               r <~ resolve_corners np nt nn l' ;; Ok ((p, t, n) :: r)
  end.
(** obj.rs:834-837: the fan (0, i, i+1) *)
Fixpoint fan {A} (first previous : A) (rest : list A) : list (A * A * A) :=
  match rest with [] => [] | c :: rest' => (first, previous, c) :: fan first c rest' end.
Definition fan_triangles {A} (corners : list A) : list (A * A * A) :=
  match corners with a :: b :: rest => fan a b rest | _ => [] end.
(** obj.rs:811-838 *)
Fixpoint triangulate (np nt nn : Z) (reverse_corners : bool) (faces : list (list corner)) : res (list ((Z*Z*Z) * (Z*Z*Z) * (Z*Z*Z))) :=
  match faces with
  | [] => Ok []
  | f :: faces' =>
      if (List.length f <? 3)%nat then Err
      else corners <~ resolve_corners np nt nn f ;;
           let corners := if reverse_corners then rev corners else corners in
           r <~ triangulate np nt nn reverse_corners faces' ;; Ok (fan_triangles corners ++ r)
  end.
Definition corner_eqb (a b : Z*Z*Z) : bool :=
  let '(p, t, n) := a in let '(p', t', n') := b in (p =? p') && (t =? t') && (n =? n').
(** The hash map of obj.rs:841 maps a corner to its position in [combined] *)
Fixpoint find_corner (c : Z*Z*Z) (combined : list (Z*Z*Z)) (k : Z) : option Z :=
  match combined with [] => None | d :: l => if corner_eqb c d then Some k else find_corner c l (k + 1) end.
Definition intern (c : Z*Z*Z) (combined : list (Z*Z*Z)) : Z * list (Z*Z*Z) :=
  match find_corner c combined 0 with Some k => (k, combined) | None => (zlen combined, combined ++ [c]) end.
(** obj.rs:844-855; [combined.len() as u32] does not wrap below 2^32 corners, which is not modelled *)
Fixpoint dedup (combined : list (Z*Z*Z)) (tris : list ((Z*Z*Z) * (Z*Z*Z) * (Z*Z*Z))) : list (Z*Z*Z) * list face :=
  match tris with
  | [] => (combined, [])
  | (a, b, c) :: tris' =>
      let (i, combined) := intern a combined in
      let (j, combined) := intern b combined in
      let (k, combined) := intern c combined in
      let (r, fs) := dedup combined tris' in (r, mkFace i j k :: fs)
  end.
(** obj.rs:800-861 [triangulate_and_dedup] *)
Definition triangulate_and_dedup (faces : list (list corner)) (np nt nn : Z) (reverse_corners : bool) : res (list (Z*Z*Z) * list face) :=
  tris <~ triangulate np nt nn reverse_corners faces ;; Ok (dedup [] tris).

(** obj.rs:659-668 [VpxObjNormal] *)
Record obj_normal : Set := mkNormal { n_x : f32; n_y : f32; n_z : f32; n_bytes : option comment_bytes }.
(** obj.rs:470-488 [VpxObjReader]; the fourth coordinates are read and never used, so they are left out *)
Record obj_reader : Set := mkReader {
  r_faces : list (list corner); r_needs_normalize : bool; r_vertices : list (f32 * f32 * f32);
  r_tex : list (f32 * option f64); r_normals : list obj_normal; r_objects : Z; r_comment : option rstring; r_name : rstring }.
(** obj.rs:711-724 [ObjData] *)
Record obj_data : Set := mkObjData {
  o_name : rstring; o_vertices : list (f32 * f32 * f32); o_tex : list (f32 * option f64); o_normals : list obj_normal; o_faces : list face }.
(** obj.rs:349-359 [ReadObjResult] *)
Record obj_result : Set := mkObjResult { x_name : rstring; x_final : list Vtx; x_vertices : Z; x_faces : list face; x_encoded : bytes }.

Section Obj.
(** Numbers as text: [Display] of f32 and f64, [{:.precision$}], [str::parse::<f64>] (which is also taken to be what the OBJ crate
    uses) *)
Variable num : Type.
Variable print32 : f32 -> num.
Variable print64 : f64 -> num.
Variable print64_digits : nat -> f64 -> num.
Variable parse64 : num -> option f64.
(** obj.rs:341-345 [estimated_flip_precision] (1 to 17): it only decides where the search below starts, so any function will do *)
Variable estimate : f32 -> nat.
Notation line := (line num).

(** obj.rs:257-258, 297-298: [(1.0 - v) as f32] has the bits of [tv] *)
Definition recovers (tv : f32) (s : num) : bool :=
  match parse64 s with Some v => w32_eqb (as_f32 (one_minus v)) tv | None => false end.
Definition probe (flipped : f64) (tv : f32) (precision : nat) : option num :=
  let s := print64_digits precision flipped in if recovers tv s then Some s else None.
(** obj.rs:303-312 *)
Fixpoint walk_down (flipped : f64) (tv : f32) (precision : nat) (text : num) : num :=
  match precision with
  | S (S p as q) => match probe flipped tv q with Some shorter => walk_down flipped tv q shorter | None => text end
  | _ => text
  end.
(** obj.rs:317: [(estimate + 1..=17).find_map(probe)] *)
Fixpoint find_probe (flipped : f64) (tv : f32) (n precision : nat) : option num :=
  match n with
  | O => None
  | S n' => match probe flipped tv precision with Some s => Some s | None => find_probe flipped tv n' (S precision) end
  end.
(** obj.rs:293-319 [shortest_recovering_text] *)
Definition shortest_recovering_text (flipped : f64) (tv : f32) : option num :=
  let e := estimate tv in
  match probe flipped tv e with
  | Some text => Some (walk_down flipped tv e text)
  | None => find_probe flipped tv (17 - e) (S e)
  end.
(** obj.rs:235-271 [flipped_v]: the text and whether it is exact.  The text of a NaN is written as the text of the f32 NaN. *)
Definition flipped_v (tv : f32) : num * bool :=
  if f32_is_nan tv then (print32 (f32_bits S754_nan), false)
  else
    let flipped := one_minus (f64_of_f32 (f32_value tv)) in
    if SFleb (f32_value f32_half) (f32_value tv) && SFleb (f32_value tv) (f32_value f32_two) then (print32 (as_f32 flipped), true)
    else
      let short := print32 (as_f32 flipped) in
      if recovers tv short then (short, true)
      else match shortest_recovering_text flipped tv with
           | Some text => (text, true)
           | None => (print64 flipped, false)
           end.
(** obj.rs:199-207 [needs_byte_preservation] *)
Definition needs_byte_preservation (v : Vtx) (tv_exact : bool) : bool :=
  existsb f32_is_nan [v_x v; v_y v; v_z v; v_nx v; v_ny v; v_nz v; v_tu v; v_tv v] || negb tv_exact.

(** obj.rs:100-185 [write_obj_to_writer]; [face.i2 + 1] is an i64, cast to usize. *)
Definition usize_of (z : Z) : N := Z.to_N (z mod 18446744073709551616).
Definition normal_lines (w : wrapper) : list line :=
  let v := w_vertex w in
  (if needs_byte_preservation v (snd (flipped_v (v_tv v))) then [LComment (obj_vpx_comment (w_bytes w))] else []) ++
  [LNormal (print32 (if f32_is_nan (v_nx v) then f32_zero else v_nx v)) (print32 (if f32_is_nan (v_ny v) then f32_zero else v_ny v))
     (print32 (if f32_is_nan (v_nz v) then f32_zero else neg_f32 (v_nz v)))].
Definition face_line (f : face) : line :=
  LFace (map (fun i => let k := usize_of (i + 1) in (k, Some k, Some k)) [f_2 f; f_1 f; f_0 f]).
Definition write_obj (name : rstring) (vs : list wrapper) (fs : list face) : list line :=
  [LComment (lit "VPXTOOL table OBJ file"); LComment (lit "VPXTOOL OBJ file"); LComment (lit "numVerts: " ++ dec_text (N.of_nat (List.length vs)) ++ lit " numFaces: " ++ dec_text (N.of_nat (List.length fs))); LObject name] ++
  map (fun w => let v := w_vertex w in LVertex (print32 (v_x v)) (print32 (v_y v)) (print32 (neg_f32 (v_z v))) None) vs ++
  map (fun w => let v := w_vertex w in LTex (print32 (v_tu v)) (Some (fst (flipped_v (v_tv v)))) None) vs ++
  flat_map normal_lines vs ++ map face_line fs.

(** obj.rs:613-684: the callbacks *)
Definition parse_f32 (s : num) : res f32 := match parse64 s with Some v => Ok (as_f32 v) | None => Err end.
Definition parse_opt (s : option num) : res (option f64) :=
  match s with None => Ok None | Some t => match parse64 t with Some v => Ok (Some v) | None => Err end end.
Definition u32_of (n : N) : Z := Z.of_N n mod 4294967296.
Definition corner_of (c : N * option N * option N) : corner :=
  let '(v, vt, vn) := c in
  mkCorner (u32_of v) (match vt with Some x => u32_of x | None => 0 end) (match vn with Some x => u32_of x | None => 0 end).
Definition matched (c : corner) : bool := (c_v c =? c_vt c) && (c_v c =? c_vn c).
Definition read_line (r : obj_reader) (l : line) : res obj_reader :=
  match l with
  | LComment s => Ok (mkReader (r_faces r) (r_needs_normalize r) (r_vertices r) (r_tex r) (r_normals r) (r_objects r) (Some s) (r_name r))
  | LObject n => Ok (mkReader (r_faces r) (r_needs_normalize r) (r_vertices r) (r_tex r) (r_normals r) (r_objects r + 1) None n)
  | LVertex x y z w =>
      x <~ parse_f32 x ;; y <~ parse_f32 y ;; z <~ parse_f32 z ;; _ <~ parse_opt w ;;
      Ok (mkReader (r_faces r) (r_needs_normalize r) (r_vertices r ++ [(x, y, z)]) (r_tex r) (r_normals r) (r_objects r) None (r_name r))
  | LTex u v w =>
      u <~ parse_f32 u ;; v <~ parse_opt v ;; _ <~ parse_opt w ;;
      Ok (mkReader (r_faces r) (r_needs_normalize r) (r_vertices r) (r_tex r ++ [(u, v)]) (r_normals r) (r_objects r) None (r_name r))
  | LNormal x y z =>
      x <~ parse_f32 x ;; y <~ parse_f32 y ;; z <~ parse_f32 z ;;
      b <~ match r_comment r with Some s => obj_parse_vpx_comment s | None => Ok None end ;;
      Ok (mkReader (r_faces r) (r_needs_normalize r) (r_vertices r) (r_tex r) (r_normals r ++ [mkNormal x y z b]) (r_objects r) None (r_name r))
  | LFace cs =>
      let corners := map corner_of cs in
      let all_matched := (List.length cs =? 3)%nat && forallb matched corners in
      Ok (mkReader (r_faces r ++ [corners]) (r_needs_normalize r || negb all_matched) (r_vertices r) (r_tex r) (r_normals r)
            (r_objects r) None (r_name r))
  end.
Fixpoint read_lines (ls : list line) (r : obj_reader) : res obj_reader :=
  match ls with [] => Ok r | l :: ls' => r' <~ read_line r l ;; read_lines ls' r' end.
Definition reader_new : obj_reader := mkReader [] false [] [] [] 0 None [].

(** [v\[i\]]: panics when out of range *)
Definition nth_res {A} (l : list A) (i : Z) : res A := match nth_error l (Z.to_nat i) with Some a => Ok a | None => Panic end.
Fixpoint map_res {A B} (f : A -> res B) (l : list A) : res (list B) :=
  match l with [] => Ok [] | a :: l' => b <~ f a ;; bs <~ map_res f l' ;; Ok (b :: bs) end.
(** obj.rs:584-601: the strict path; a matched face has three corners *)
Definition strict_face (reverse_corners : bool) (f : list corner) : res face :=
  a <~ nth_res f 0 ;; b <~ nth_res f 1 ;; c <~ nth_res f 2 ;;
  Ok (if reverse_corners then mkFace (c_v c - 1) (c_v b - 1) (c_v a - 1) else mkFace (c_v a - 1) (c_v b - 1) (c_v c - 1)).
(** obj.rs:515-608 [VpxObjReader::read] *)
Definition read_obj (ls : list line) (reverse_corners : bool) : res obj_data :=
  r <~ read_lines ls reader_new ;;
  if negb (r_objects r =? 1) then Err
  else if r_needs_normalize r then
    '(combined, fs) <~ triangulate_and_dedup (r_faces r) (zlen (r_vertices r)) (zlen (r_tex r)) (zlen (r_normals r)) reverse_corners ;;
    vs <~ map_res (fun c => nth_res (r_vertices r) (fst (fst c))) combined ;;
    ts <~ map_res (fun c => nth_res (r_tex r) (snd (fst c))) combined ;;
    ns <~ map_res (fun c => nth_res (r_normals r) (snd c)) combined ;;
    Ok (mkObjData (r_name r) vs ts ns fs)
  else
    fs <~ map_res (strict_face reverse_corners) (r_faces r) ;;
    Ok (mkObjData (r_name r) (r_vertices r) (r_tex r) (r_normals r) fs).

(** expanded/primitives.rs:674-685 [put_f32_le_nan_as_zero] *)
Definition put_nan_as_zero (x : f32) : bytes := w32_bytes (if f32_is_nan x then f32_zero else x).
(** obj.rs:430-452 [write_vertex] *)
Definition write_vertex (v : Vtx) (b : option comment_bytes) : bytes :=
  match b with
  | Some (VertexBytes d) => d
  | _ => w32_bytes (v_x v) ++ w32_bytes (v_y v) ++ w32_bytes (v_z v) ++
         match b with
         | Some (NormalBytes d) => d
         | _ => put_nan_as_zero (v_nx v) ++ put_nan_as_zero (v_ny v) ++ put_nan_as_zero (v_nz v)
         end ++ w32_bytes (v_tu v) ++ w32_bytes (v_tv v)
  end.
(** obj.rs:387-403 *)
Definition final_vertex (convert : bool) (v : f32 * f32 * f32) (t : f32 * option f64) (n : obj_normal) : Vtx :=
  let '(x, y, z) := v in
  let tv := match snd t with Some d => d | None => S754_zero false end in
  if convert then mkVtx x y (neg_f32 z) (n_x n) (n_y n) (neg_f32 (n_z n)) (fst t) (as_f32 (one_minus tv))
  else mkVtx x y z (n_x n) (n_y n) (n_z n) (fst t) (as_f32 tv).
Definition final_vertices (convert : bool) (d : obj_data) : list (Vtx * option comment_bytes) :=
  map (fun e => let '(v, t, n) := e in (final_vertex convert v t n, n_bytes n)) (combine (combine (o_vertices d) (o_tex d)) (o_normals d)).
(** obj.rs:361-416 [read_obj_from_reader], [read_obj_from_reader_with_options] *)
Definition read_obj_from_reader (convert : bool) (ls : list line) : res obj_result :=
  d <~ read_obj ls convert ;;
  let fin := final_vertices convert d in
  Ok (mkObjResult (o_name d) (map fst fin) (zlen (o_vertices d)) (o_faces d) (flat_map (fun e => write_vertex (fst e) (snd e)) fin)).

(** expanded/primitives.rs:815-834 [read_obj_and_compress] and 715-722: the mesh fields of the primitive afterwards *)
Definition read_obj_and_compress (compress : bytes -> bytes) (ls : list line) : res mesh_fields :=
  x <~ read_obj_from_reader true ls ;;
  Ok (mkMeshFields (Some (Z_to_w32 (x_vertices x))) (Some (compress (x_encoded x)))
        (Some (Z_to_w32 (zlen (x_faces x) * 3))) (Some (compress (encode_faces (x_vertices x) (x_faces x))))).

(** expanded/primitives.rs:916-945 [read_obj_as_frame] *)
Definition read_obj_as_frame (ls : list line) : res (list frame_vertex) :=
  d <~ read_obj ls true ;;
  Ok (map (fun e => let '(x, y, z) := fst e in let n := snd e in mkFv x y (neg_f32 z) (n_x n) (n_y n) (neg_f32 (n_z n)))
        (combine (o_vertices d) (o_normals d))).
(** expanded/primitives.rs:597-645 [write_animation_frames_to_meshes]: the OBJ files of the frames *)
Fixpoint write_frames (decompress : bytes -> res bytes) (name : rstring) (vs : list wrapper) (fs : list face) (frames : list (bytes * u32)) : res (list (list line)) :=
  match frames with
  | [] => Ok []
  | (d, n) :: frames' =>
      fvs <~ read_animation_frame decompress d n ;;
      r <~ write_frames decompress name vs fs frames' ;; Ok (write_obj name (replace_vertices vs fvs) fs :: r)
  end.
(** expanded/primitives.rs:734-777: the frames read back and compressed, with their lengths *)
Fixpoint read_frame_files (compress : bytes -> bytes) (files : list (list line)) : res (list (bytes * u32)) :=
  match files with
  | [] => Ok []
  | ls :: files' =>
      fvs <~ read_obj_as_frame ls ;;
      r <~ read_frame_files compress files' ;;
      let d := compress (flat_map write_frame_vertex fvs) in Ok ((d, Z_to_w32 (zlen d)) :: r)
  end.
End Obj.

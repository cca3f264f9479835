(** Cutting a polygon into triangles: src/vpx/mesh/walls.rs, and src/vpx/mesh/mod.rs for lights and flashers. *)
From Coq Require Import Floats.SpecFloat.
From Verif Require Import Base Text Image Sound Quantize ColorText Cfb JsonFloat Mesh Browser Builtin.

(** A vertex of a polygon, [(f32, f32)] or the [x] and [y] of a [RenderVertex2D] *)
Definition point : Set := (f32 * f32)%type.
Definition le32b (a b : f32) : bool := SFleb (f32_value a) (f32_value b).
Definition eq32b (a b : f32) : bool := SFeqb (f32_value a) (f32_value b).
(** [f32::min], [f32::max]: a NaN is ignored *)
Definition min32 (a b : f32) : f32 := if f32_is_nan a then b else if f32_is_nan b then a else if lt32 b a then b else a.
Definition max32 (a b : f32) : f32 := if f32_is_nan a then b else if f32_is_nan b then a else if lt32 a b then b else a.

(** mod.rs:738-740 [get_dot], walls.rs:617-619 [dot_2d] *)
Definition dot (e1 j e2 : point) : f32 :=
  sub32 (mul32 (sub32 (fst j) (fst e1)) (sub32 (snd j) (snd e2))) (mul32 (sub32 (snd j) (snd e1)) (sub32 (fst j) (fst e2))).
(** mod.rs:744-785, walls.rs:635-667 [lines_intersect] *)
Definition lines_intersect (s1 s2 e1 e2 : point) : bool :=
  let '(x1, y1) := s1 in let '(x2, y2) := s2 in let '(x3, y3) := e1 in let '(x4, y4) := e2 in
  let d123 := sub32 (mul32 (sub32 x2 x1) (sub32 y3 y1)) (mul32 (sub32 x3 x1) (sub32 y2 y1)) in
  if eq32b d123 f32_zero then le32b (min32 x1 x2) x3 && le32b x3 (max32 x2 x1) else
  let d124 := sub32 (mul32 (sub32 x2 x1) (sub32 y4 y1)) (mul32 (sub32 x4 x1) (sub32 y2 y1)) in
  if eq32b d124 f32_zero then le32b (min32 x1 x2) x4 && le32b x4 (max32 x2 x1) else
  if le32b f32_zero (mul32 d123 d124) then false else
  let d341 := sub32 (mul32 (sub32 x3 x1) (sub32 y4 y1)) (mul32 (sub32 x4 x1) (sub32 y3 y1)) in
  if eq32b d341 f32_zero then le32b (min32 x3 x4) x1 && le32b x1 (max32 x3 x4) else
  let d342 := add32 (sub32 d123 d124) d341 in
  if eq32b d342 f32_zero then le32b (min32 x3 x4) x2 && le32b x2 (max32 x3 x4) else
  lt32 (mul32 d341 d342) f32_zero.

(** The edges of a polygon, each from one vertex to the next *)
Definition cycle {A} (poly : list A) : list (A * A) := match poly with [] => [] | x :: r => combine poly (r ++ [x]) end.

(** mod.rs:789-849, walls.rs:563-613 [advance_point]: whether the triangle (a, b, c) can be cut off. [same i j] tells whether an edge with the
    vertex [i] is skipped because of [j]: the vertex itself for lights and flashers, where references are compared, and any vertex at the same
    position for walls. [outside] is the rejection by bounding boxes. *)
Section Advance.
Variable points : list point.
Variable same : nat -> nat -> bool.
Variable outside : point -> point -> point -> point -> bool.
Fixpoint crosses (a c : nat) (p1 p3 : point) (es : list (nat * nat)) : res bool :=
  match es with
  | [] => Ok false
  | (i, j) :: r =>
      match nth_error points i, nth_error points j with
      | Some v1, Some v2 =>
          if same i a || same j a || same i c || same j c then crosses a c p1 p3 r
          else if outside p1 p3 v1 v2 then crosses a c p1 p3 r
          else if lines_intersect p1 p3 v1 v2 then Ok true
          else crosses a c p1 p3 r
      | _, _ => Panic
      end
  end.
Definition advance_point (poly : list nat) (a b c pre post : nat) : res bool :=
  match nth_error points a, nth_error points b, nth_error points c, nth_error points pre, nth_error points post with
  | Some p1, Some p2, Some p3, Some q1, Some q2 =>
      if lt32 (dot p1 p2 p3) f32_zero then Ok false
      else if lt32 f32_zero (dot q1 p1 p2) && lt32 (dot q1 p1 p3) f32_zero then Ok false
      else if lt32 f32_zero (dot p2 p3 q2) && lt32 (dot p1 p3 q2) f32_zero then Ok false
      else x <~ crosses a c p1 p3 (cycle poly) ;; Ok (negb x)
  | _, _, _, _, _ => Panic
  end.
End Advance.

(** mod.rs:865-898, walls.rs:525-556: the loops that cut off triangles. [s - 3] panics for a polygon of fewer than three vertices. *)
Section Clip.
Variable advance : list nat -> nat -> nat -> nat -> nat -> nat -> res bool.
Fixpoint find_ear (poly : list nat) (left i : nat) : res (option (nat * (nat * nat * nat))) :=
  match left with
  | O => Ok None
  | S left' =>
      let s := List.length poly in
      if (s <? 3)%nat then Panic else
      match nth_error poly (if (i =? 0)%nat then s - 1 else i - 1), nth_error poly i,
            nth_error poly (if (i <? s - 1)%nat then i + 1 else 0), nth_error poly (if (i <? s - 2)%nat then i + 2 else i + 2 - s),
            nth_error poly (if (i <? s - 3)%nat then i + 3 else i + 3 - s) with
      | Some pre, Some a, Some b, Some c, Some post =>
          x <~ advance poly a b c pre post ;;
          if x : bool then Ok (Some (if (i <? s - 1)%nat then (i + 1)%nat else 0%nat, (a, b, c))) else find_ear poly left' (S i)
      | _, _, _, _, _ => Panic
      end
  end.
Fixpoint clip (count : nat) (poly : list nat) : res (list face) :=
  match count with
  | O => Ok []
  | S count' =>
      x <~ find_ear poly (List.length poly) 0 ;;
      match x with
      | None => Ok []
      | Some (k, (a, b, c)) =>
          r <~ clip count' (firstn k poly ++ skipn (S k) poly) ;;
          Ok (mkFace (Z.of_nat a) (Z.of_nat c) (Z.of_nat b) :: r)
      end
  end.
End Clip.

(** walls.rs:622-630 [signed_area] *)
Definition signed_area (points : list point) : f32 :=
  fold_left (fun area e => let '((x1, y1), (x2, y2)) := e in add32 area (sub32 (mul32 x1 y2) (mul32 x2 y1))) (cycle points) f32_zero.
(** walls.rs:585-604: equal positions, and the rejection as it stands, with [v2.1 <= maxx] *)
Definition same_position (points : list point) (i j : nat) : bool :=
  match nth_error points i, nth_error points j with Some (x, y), Some (x', y') => eq32b x x' && eq32b y y' | _, _ => false end.
Definition outside_wall (p1 p3 v1 v2 : point) : bool :=
  let minx := min32 (fst p1) (fst p3) in let maxx := max32 (fst p1) (fst p3) in
  let miny := min32 (snd p1) (snd p3) in let maxy := max32 (snd p1) (snd p3) in
  negb ((le32b miny (snd v1) || le32b miny (snd v2)) && (le32b (snd v1) maxy || le32b (snd v2) maxy) &&
        (le32b minx (fst v1) || le32b minx (fst v2)) && (le32b (fst v1) maxx || le32b (snd v2) maxx)).
(** walls.rs:509-559 [triangulate_polygon]; the cast of indices to [u32] loses nothing below 2^32 vertices and is left out. *)
Definition triangulate_wall (points : list point) : res (list face) :=
  let n := List.length points in
  if (n <? 3)%nat then Ok [] else
  let poly := seq 0 n in
  clip (advance_point points (same_position points) outside_wall) (n - 2) (if lt32 f32_zero (signed_area points) then rev poly else poly).

(** mod.rs:695-713 [find_corner_vertex] *)
Definition f32_largest : f32 := Z_to_w32 0x7f7fffff.
Definition find_corner (points : list point) : nat :=
  fst (fst (fold_left (fun s ip => let '(m, y0, x0) := s in let '(i, (x, y)) := ip in
    if lt32 y0 y then s else if eq32b y y0 && le32b x0 x then s else (i, y, x))
    (combine (seq 0 (List.length points)) points) (0%nat, f32_largest, f32_largest))).
(** mod.rs:718-733 [is_clockwise] *)
Definition is_clockwise (points : list point) : res bool :=
  let n := List.length points in
  if (n <? 3)%nat then Ok false else
  let i := find_corner points in
  match nth_error points ((i + n - 1) mod n)%nat, nth_error points i, nth_error points ((i + 1) mod n)%nat with
  | Some a, Some b, Some c =>
      Ok (lt32 f32_zero (sub32 (add32 (add32 (mul32 (fst b) (snd c)) (mul32 (fst a) (snd b))) (mul32 (snd a) (fst c)))
                               (add32 (add32 (mul32 (snd a) (fst b)) (mul32 (snd b) (fst c))) (mul32 (fst a) (snd c)))))
  | _, _, _ => Panic
  end.
(** mod.rs:836-842: [pv_cross2.y > maxx] as it stands *)
Definition outside_flasher (p1 p3 v1 v2 : point) : bool :=
  let minx := min32 (fst p1) (fst p3) in let maxx := max32 (fst p1) (fst p3) in
  let miny := min32 (snd p1) (snd p3) in let maxy := max32 (snd p1) (snd p3) in
  lt32 (snd v1) miny && lt32 (snd v2) miny || lt32 maxy (snd v1) && lt32 maxy (snd v2) ||
  lt32 (fst v1) minx && lt32 (fst v2) minx || lt32 maxx (fst v1) && lt32 maxx (snd v2).
(** mod.rs:851-901 [polygon_to_triangles]; indices are [usize]. *)
Definition triangulate_flasher (points : list point) : res (list face) :=
  let n := List.length points in
  if (n <? 3)%nat then Ok [] else
  reversed <~ is_clockwise points ;;
  let poly := seq 0 n in
  clip (advance_point points Nat.eqb outside_flasher) (n - 2) (if reversed : bool then rev poly else poly).
